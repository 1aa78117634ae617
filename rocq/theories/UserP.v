(** Proofs about requests to objects with a handler of the application. *)
From Verif Require Import PyBase BytesM EsvM MsgM PropM ObjM SpecWire SpecReq SpecUser DictP ObjP CodecP ReqP.
Require Import ZifyBool.

Definition ust (o : obj) : ustate := (o_calls o, o_props o).
(** [o'] differs from [o] in its table and the number of questions only. *)
Definition same_but_table (o o' : obj) : Prop := o' = mkobj (o_code o) (o_name o) (o_props o') (o_handler o) (o_calls o') (o_obs o) (o_cls o).
Lemma sbt_refl o : same_but_table o o. Proof. destruct o; reflexivity. Qed.
Lemma sbt_trans a b c : same_but_table a b -> same_but_table b c -> same_but_table a c.
Proof. destruct a, b, c. unfold same_but_table; cbn. congruence. Qed.
Lemma sbt_handler a b : same_but_table a b -> o_handler b = o_handler a.
Proof. intros H. rewrite H. reflexivity. Qed.
Lemma sbt_after ps o : same_but_table o (after_call ps o). Proof. destruct o; reflexivity. Qed.

Lemma stores_store c d o : stores c d (o_props o) (o_props (store c d o)).
Proof.
  unfold store, set_property_data, get_property. destruct (zget c (o_props o)) as [p|] eqn:G; cbn [fst o_props set_o_props].
  - assert (K : forall ps : props, zget c ps = Some p ->
      map fst (zset c (set_op_data d p) ps) = map fst ps /\ forall k, zget k (zset c (set_op_data d p) ps) = if k =? c then Some (set_op_data d p) else zget k ps).
    { clear G o. induction ps as [|[k0 q] ps IH]; [discriminate|]. cbn [dget dset]. destruct (c =? k0) eqn:E.
      - intros [= ->]. split; [reflexivity|]. intros k. cbn [dget]. assert (k0 = c) as -> by lia. destruct (k =? c); reflexivity.
      - intros G. destruct (IH G) as (A & B). split; [cbn [map fst]; f_equal; exact A|]. intros k. cbn [dget].
        destruct (k =? k0) eqn:E1; [|apply B]. destruct (k =? c) eqn:E2; [lia|reflexivity]. }
    destruct (K _ G) as (A & B). split; [exact A|]. intros k. rewrite B. destruct (k =? c) eqn:E; [|reflexivity].
    assert (k = c) as -> by lia. rewrite G. destruct p; reflexivity.
  - split; [reflexivity|]. intros k. destruct (k =? c) eqn:E; [|reflexivity]. assert (k = c) as -> by lia. rewrite G. reflexivity.
Qed.
Lemma sbt_store c d o : same_but_table o (store c d o).
Proof. unfold store, set_property_data. destruct (get_property c o); destruct o; reflexivity. Qed.
Lemma calls_store c d o : o_calls (store c d o) = o_calls o.
Proof. rewrite (sbt_store c d o). unfold store, set_property_data. destruct (get_property c o); reflexivity. Qed.

Lemma u_do_read h o mp : o_handler o = HUser h ->
  u_read h false (ust o) mp (ust (fst (do_read o mp))) (snd (do_read o mp)) /\ same_but_table o (fst (do_read o mp)).
Proof.
  intros H. unfold do_read, get_property, read_requested, ust. rewrite H.
  destruct (zget (p_code mp) (o_props o)) as [p|] eqn:G.
  - destruct (h_read h (o_calls o) (o_props o) (Some p)) as [ps r] eqn:E. destruct r as [[]|e]; (split; [|apply sbt_after]).
    + refine (ur_allowed h false _ _ mp p ps _ G E _ _); unfold current, get_property; cbn [o_props after_call].
      * intros q ->. reflexivity.
      * intros ->. reflexivity.
    + exact (ur_refused h false _ _ mp p ps G E).
    + exact (ur_raised h false _ _ mp p ps e G E).
  - split; [|apply sbt_refl]. exact (ur_unknown h false _ _ mp eq_refl G).
Qed.
Lemma u_do_read_wr h o mp : o_handler o = HUser h ->
  u_read h true (ust o) mp (ust (fst (do_read_wr o mp))) (snd (do_read_wr o mp)) /\ same_but_table o (fst (do_read_wr o mp)).
Proof.
  intros H. unfold do_read_wr, get_property, read_requested, ust. rewrite H.
  destruct (zget (p_code mp) (o_props o)) as [p|] eqn:G.
  - destruct (h_read h (o_calls o) (o_props o) (Some p)) as [ps r] eqn:E. destruct r as [[]|e]; (split; [|apply sbt_after]).
    + refine (ur_allowed h true _ _ mp p ps _ G E _ _); unfold current, get_property; cbn [o_props after_call].
      * intros q ->. reflexivity.
      * intros ->. reflexivity.
    + exact (ur_refused h true _ _ mp p ps G E).
    + exact (ur_raised h true _ _ mp p ps e G E).
  - destruct (h_read h (o_calls o) (o_props o) None) as [ps r] eqn:E. pose proof (ur_none h true _ _ mp ps r eq_refl G E) as U.
    destruct r as [[]|e]; (split; [exact U|apply sbt_after]).
Qed.
Lemma u_do_write h o mp : o_handler o = HUser h ->
  u_write h (ust o) mp (ust (fst (do_write o mp))) (snd (do_write o mp)) /\ same_but_table o (fst (do_write o mp)).
Proof.
  intros H. unfold do_write, get_property, write_requested. rewrite H.
  destruct (zget (p_code mp) (o_props o)) as [p|] eqn:G.
  - destruct (h_write h (o_calls o) (o_props o) p (p_data mp)) as [ps r] eqn:E. destruct r as [[]|e].
    + cbn [fst snd]. split; [|exact (sbt_trans _ _ _ (sbt_after ps o) (sbt_store _ _ _))].
      unfold ust. rewrite calls_store. exact (uw_allowed h _ _ mp p ps _ G E (stores_store _ _ (after_call ps o))).
    + split; [|apply sbt_after]. exact (uw_refused h _ _ mp p ps G E).
    + split; [|apply sbt_after]. exact (uw_raised h _ _ mp p ps e G E).
  - split; [|apply sbt_refl]. exact (uw_unknown h _ _ mp G).
Qed.

(** The loop: the answers, and the number of accepted ones. *)
Lemma u_loop h f R : (forall o mp, o_handler o = HUser h -> R (ust o) mp (ust (fst (f o mp))) (snd (f o mp)) /\ same_but_table o (fst (f o mp))) ->
  forall l o, o_handler o = HUser h ->
  exists out, u_all R (ust o) l (ust (fst (do_loop f o l))) out /\ same_but_table o (fst (do_loop f o l)) /\
  match out with
  | Ok (rs, bs) => length bs = length l /\ snd (do_loop f o l) = Ok (rs, zlen (filter (fun b => b) bs))
  | Err e => snd (do_loop f o l) = Err e
  end.
Proof.
  intros F. induction l as [|mp l IH]; intros o H.
  - exists (Ok ([], [])). split; [constructor|]. split; [apply sbt_refl|]. split; reflexivity.
  - cbn [do_loop]. destruct (F o mp H) as (A & B). destruct (f o mp) as [o1 r] eqn:E. cbn [fst snd] in A, B.
    destruct r as [[rp b]|e].
    + assert (H1 : o_handler o1 = HUser h) by (rewrite (sbt_handler _ _ B); exact H).
      destruct (IH o1 H1) as (out & U & T & O). destruct (do_loop f o1 l) as [o2 r2] eqn:E2. cbn [fst snd] in *.
      exists (match out with Ok (rs, bs) => Ok (rp :: rs, b :: bs) | Err e => Err e end).
      destruct out as [[rs bs]|e].
      * destruct O as (Lb & ->). cbn [fst snd]. split; [exact (ua_next R _ mp l _ rp b _ (Ok (rs, bs)) A U)|].
        split; [exact (sbt_trans _ _ _ B T)|]. split; [cbn [length]; now rewrite Lb|]. unfold zlen. cbn [filter]. destruct b; cbn [length]; do 3 f_equal; lia.
      * subst r2. cbn [fst snd]. split; [exact (ua_next R _ mp l _ rp b _ (Err e) A U)|].
        split; [exact (sbt_trans _ _ _ B T)|reflexivity].
    + exists (Err e). cbn [fst snd]. split; [exact (ua_raised R _ mp l _ e A)|]. split; [exact B|reflexivity].
Qed.
Lemma count_every bs : (zlen (filter (fun b => b) bs) =? zlen bs) = every bs.
Proof.
  assert (K : zlen (filter (fun b : bool => b) bs) <= zlen bs /\ ((zlen (filter (fun b : bool => b) bs) =? zlen bs) = every bs)).
  { induction bs as [|b bs (I1 & I2)]; [split; reflexivity|]. unfold zlen, every in *. cbn [filter forallb]. destruct b; cbn [length andb]; [rewrite <- I2|]; lia. }
  apply K.
Qed.

Lemma L_C117_read : forall h o req, o_handler o = HUser h -> plain req -> m_ESV req = 0x62 ->
  exists ps' n' out, u_all (u_read h false) (o_calls o, o_props o) (m_props req) (n', ps') out /\
  obj_message_received o req =
    (mkobj (o_code o) (o_name o) ps' (HUser h) n' (o_obs o) (o_cls o), o_obs o,
     match out with
     | Ok (rs, bs) => Ok (Some (mkmsg (m_TID req) (m_DEOJ req) (m_SEOJ req) (if every bs then 0x72 else 0x52) rs [] [] None None))
     | Err e => Err e
     end).
Proof.
  intros h o req H P E. rewrite received_plain; [|rewrite H; discriminate|now rewrite E|now rewrite E].
  rewrite plain_counts by (try assumption; now rewrite E). rewrite E. change (do_plain 0x62) with do_read.
  destruct (u_loop h do_read (u_read h false) (u_do_read h) (m_props req) o H) as (out & U & T & O).
  destruct (do_loop do_read o (m_props req)) as [o1 r] eqn:L. cbn [fst snd] in *. exists (o_props o1), (o_calls o1), out.
  split; [exact U|]. unfold same_but_table in T. rewrite H in T. rewrite <- T. destruct out as [[rs bs]|e]; [|subst r; reflexivity].
  destruct O as (Lb & ->). replace (zlen (m_props req)) with (zlen bs) by (unfold zlen; lia). rewrite count_every. destruct (every bs); reflexivity.
Qed.

Lemma L_C117_write : forall h o req, o_handler o = HUser h -> plain req -> m_ESV req = 0x60 \/ m_ESV req = 0x61 ->
  exists ps' n' out, u_all (u_write h) (o_calls o, o_props o) (m_props req) (n', ps') out /\
  obj_message_received o req =
    (mkobj (o_code o) (o_name o) ps' (HUser h) n' (o_obs o) (o_cls o), o_obs o,
     match out with
     | Ok (rs, bs) =>
         if every bs && (m_ESV req =? 0x60) then Ok None
         else Ok (Some (mkmsg (m_TID req) (m_DEOJ req) (m_SEOJ req) (if every bs then 0x71 else 0x50) rs [] [] None None))
     | Err e => Err e
     end).
Proof.
  intros h o req H P E. destruct (write_plain _ E) as (E1 & E2 & E3 & E4).
  rewrite received_plain; [|rewrite H; discriminate|exact E1|exact E2].
  rewrite plain_counts by assumption. rewrite E4.
  destruct (u_loop h do_write (u_write h) (u_do_write h) (m_props req) o H) as (out & U & T & O).
  destruct (do_loop do_write o (m_props req)) as [o1 r] eqn:L. cbn [fst snd] in *. exists (o_props o1), (o_calls o1), out.
  split; [exact U|]. unfold same_but_table in T. rewrite H in T. rewrite <- T. destruct out as [[rs bs]|e]; [|subst r; reflexivity].
  destruct O as (Lb & ->). replace (zlen (m_props req)) with (zlen bs) by (unfold zlen; lia). rewrite count_every.
  destruct E as [-> | ->]; destruct (every bs); reflexivity.
Qed.

Lemma L_C117_write_read : forall h o req, o_handler o = HUser h -> plain req -> m_ESV req = 0x6E ->
  exists x1 ps' n' out1, u_all (u_write h) (o_calls o, o_props o) (m_sets req) x1 out1 /\
  exists r, obj_message_received o req = (mkobj (o_code o) (o_name o) ps' (HUser h) n' (o_obs o) (o_cls o), o_obs o, r) /\
  match out1 with
  | Err e => r = Err e /\ x1 = (n', ps')
  | Ok (ss, bs) =>
      exists out2, u_all (u_read h true) x1 (m_gets req) (n', ps') out2 /\
      r = match out2 with
          | Ok (gs, cs) => Ok (Some (mkmsg (m_TID req) (m_DEOJ req) (m_SEOJ req) (if every bs && every cs then 0x7E else 0x5E) [] ss gs None None))
          | Err e => Err e
          end
  end.
Proof.
  intros h o req H P E. rewrite received_wr; [|rewrite H; discriminate|exact E].
  rewrite plain_counts2 by (try assumption; now rewrite E).
  destruct (u_loop h do_write (u_write h) (u_do_write h) (m_sets req) o H) as (out1 & U & T & O).
  destruct (do_loop do_write o (m_sets req)) as [o1 r1] eqn:L. cbn [fst snd] in *.
  destruct out1 as [[ss bs]|e].
  - destruct O as (Lb & ->). assert (H1 : o_handler o1 = HUser h) by (rewrite (sbt_handler _ _ T); exact H).
    destruct (u_loop h do_read_wr (u_read h true) (u_do_read_wr h) (m_gets req) o1 H1) as (out2 & U2 & T2 & O2).
    destruct (do_loop do_read_wr o1 (m_gets req)) as [o2 r2] eqn:L2. cbn [fst snd] in *.
    exists (ust o1), (o_props o2), (o_calls o2), (Ok (ss, bs)). split; [exact U|].
    pose proof (sbt_trans _ _ _ T T2) as T3. unfold same_but_table in T3. rewrite H in T3. rewrite <- T3.
    destruct out2 as [[gs cs]|e].
    + destruct O2 as (Lc & ->). eexists. split; [reflexivity|]. exists (Ok (gs, cs)). split; [exact U2|].
      assert (X : (zlen (filter (fun b => b) bs) + zlen (filter (fun b => b) cs) =? zlen (m_sets req) + zlen (m_gets req)) = every bs && every cs).
      { rewrite <- (count_every bs), <- (count_every cs). assert (zlen bs = zlen (m_sets req) /\ zlen cs = zlen (m_gets req)) as (<- & <-) by (unfold zlen; lia).
        assert (forall b : list bool, zlen (filter (fun b => b) b) <= zlen b) as K by (intros b; unfold zlen; induction b as [|[] b I]; cbn [filter length]; lia).
        pose proof (K bs). pose proof (K cs). lia. }
      rewrite X. reflexivity.
    + subst r2. eexists. split; [reflexivity|]. exists (Err e). split; [exact U2|reflexivity].
  - subst r1. exists (ust o1), (o_props o1), (o_calls o1), (Err e). split; [exact U|].
    unfold same_but_table in T. rewrite H in T. rewrite <- T. eexists. split; [reflexivity|]. split; reflexivity.
Qed.

Lemma L_C117_silent : forall h o req, o_handler o = HUser h -> ~ In (m_ESV req) [0x60; 0x61; 0x62; 0x6E] ->
  fst (fst (obj_message_received o req)) = o.
Proof.
  intros h o req H N. destruct (is_request (m_ESV req)) eqn:R.
  - assert (W : (m_ESV req =? 0x6E) = false) by (destruct (m_ESV req =? 0x6E) eqn:X; [exfalso; apply N; cbn; lia|reflexivity]).
    rewrite received_plain; [|rewrite H; discriminate|exact R|exact W].
    assert (D : do_plain (m_ESV req) = do_skip).
    { destruct (L_C10_esv_classification (m_ESV req)) as (_ & _ & Rd & Wr & _). unfold do_plain.
      destruct (is_read_request (m_ESV req)); [exfalso; apply N; specialize (proj1 Rd eq_refl); cbn; tauto|].
      destruct (is_write_request (m_ESV req)); [exfalso; apply N; specialize (proj1 Wr eq_refl); cbn; tauto|reflexivity]. }
    rewrite D, loop_skip. reflexivity.
  - unfold obj_message_received. rewrite R. reflexivity.
Qed.

(** A calm handler leads to an answer. *)
Lemma zget_keys (ps ps' : props) c : map fst ps' = map fst ps -> (zget c ps' = None <-> zget c ps = None).
Proof.
  intros K. rewrite !dget_none by (intros; apply Z.eqb_eq). unfold dkeys. rewrite K. reflexivity.
Qed.
Lemma calm_write h x mp x' r : calm h -> u_write h x mp x' r -> (exists a, r = Ok a) /\ map fst (snd x') = map fst (snd x).
Proof.
  intros (_ & W) U. destruct U as [n ps mp G|n ps mp p ps' ps2 G E St|n ps mp p ps' G E|n ps mp p ps' e G E]; cbn [snd].
  - split; eauto.
  - destruct (W n ps p (p_data mp)) as (_ & K). rewrite E in K. cbn [fst] in K. split; eauto. rewrite (proj1 St). exact K.
  - destruct (W n ps p (p_data mp)) as (_ & K). rewrite E in K. split; eauto.
  - destruct (W n ps p (p_data mp)) as ((b & K) & _). rewrite E in K. discriminate K.
Qed.
Lemma calm_read h wr x mp x' r : calm h -> u_read h wr x mp x' r -> (wr = true -> zget (p_code mp) (snd x) <> None) ->
  (exists a, r = Ok a) /\ map fst (snd x') = map fst (snd x).
Proof.
  intros (R & _) U Kn. destruct U as [n ps mp Wf G|n ps mp p ps' d G E _ _|n ps mp p ps' G E|n ps mp p ps' e G E|n ps mp ps' b Wt G E]; cbn [snd] in *.
  - split; eauto.
  - destruct (R n ps (Some p)) as (_ & K). rewrite E in K. split; eauto.
  - destruct (R n ps (Some p)) as (_ & K). rewrite E in K. split; eauto.
  - destruct (R n ps (Some p)) as ((b & K) & _). rewrite E in K. discriminate K.
  - exfalso. exact (Kn Wt G).
Qed.
Lemma calm_all (R : ustate -> prop -> ustate -> res (prop * bool) -> Prop) (ok : props -> prop -> Prop) x l x' out :
  (forall x mp x' r, R x mp x' r -> ok (snd x) mp -> (exists a, r = Ok a) /\ map fst (snd x') = map fst (snd x)) ->
  (forall ps ps' mp, map fst ps' = map fst ps -> ok ps mp -> ok ps' mp) ->
  u_all R x l x' out -> Forall (ok (snd x)) l -> (exists a, out = Ok a) /\ map fst (snd x') = map fst (snd x).
Proof.
  intros St Mo U. induction U as [x|x mp l x1 rp b x2 out S1 U IH|x mp l x1 e S1]; intros F.
  - split; eauto.
  - apply Forall_cons_iff in F as (F1 & F2). destruct (St _ _ _ _ S1 F1) as (_ & K).
    destruct IH as (([rs bs] & ->) & K2).
    { eapply Forall_impl; [|exact F2]. intros mp' O. exact (Mo _ _ _ K O). }
    split; [eauto|congruence].
  - apply Forall_cons_iff in F as (F1 & F2). destruct (St _ _ _ _ S1 F1) as ((a & X) & _). discriminate X.
Qed.

Lemma L_C117_answered : forall h o req, o_handler o = HUser h -> calm h -> plain req -> In (m_ESV req) [0x60; 0x61; 0x62; 0x6E] ->
  (m_ESV req = 0x6E -> forall mp, In mp (m_gets req) -> has_property (p_code mp) o = true) ->
  exists o' r, obj_message_received o req = (o', o_obs o, Ok r) /\ (m_ESV req <> 0x60 -> r <> None) /\ map fst (o_props o') = map fst (o_props o).
Proof.
  intros h o req H C P I Kn.
  assert (I' : m_ESV req = 0x62 \/ (m_ESV req = 0x60 \/ m_ESV req = 0x61) \/ m_ESV req = 0x6E) by (cbn in I; lia).
  assert (Fw : forall l, Forall (fun mp => (fun (_ : props) (_ : prop) => True) (o_props o) mp) l) by (intros l; apply Forall_forall; intros; exact I0 || exact Logic.I).
  destruct I' as [E|[E|E]].
  - destruct (L_C117_read h o req H P E) as (ps' & n' & out & U & X).
    destruct (calm_all _ (fun _ _ => True) _ _ _ _ (fun x mp x' r S _ => calm_read h false x mp x' r C S (fun Y => match Bool.diff_false_true Y with end)) (fun _ _ _ _ Y => Y) U (Fw _)) as (([rs bs] & ->) & K).
    eexists. eexists. split; [exact X|]. split; [discriminate|exact K].
  - destruct (L_C117_write h o req H P E) as (ps' & n' & out & U & X).
    destruct (calm_all _ (fun _ _ => True) _ _ _ _ (fun x mp x' r S _ => calm_write h x mp x' r C S) (fun _ _ _ _ Y => Y) U (Fw _)) as (([rs bs] & ->) & K).
    destruct E as [E|E].
    + rewrite E in X. change (0x60 =? 0x60) with true in X. rewrite andb_true_r in X.
      destruct (every bs); (eexists; eexists; split; [exact X|]; split; [intros N; lia|exact K]).
    + rewrite E in X. change (0x61 =? 0x60) with false in X. rewrite andb_false_r in X.
      eexists; eexists; split; [exact X|]. split; [discriminate|exact K].
  - destruct (L_C117_write_read h o req H P E) as (x1 & ps' & n' & out1 & U & r & X & Y).
    destruct (calm_all _ (fun _ _ => True) _ _ _ _ (fun x mp x' r S _ => calm_write h x mp x' r C S) (fun _ _ _ _ Y => Y) U (Fw _)) as (([ss bs] & ->) & K).
    destruct Y as (out2 & U2 & ->).
    destruct (calm_all _ (fun ps mp => zget (p_code mp) ps <> None) _ _ _ _ (fun x mp x' r S O => calm_read h true x mp x' r C S (fun _ => O)) (fun ps ps' mp Kk O Z0 => O (proj1 (zget_keys ps ps' (p_code mp) Kk) Z0)) U2) as (([gs cs] & ->) & K2).
    + apply Forall_forall. intros mp Im. specialize (Kn E mp Im). rewrite (zget_keys _ _ _ K). cbn [snd]. unfold has_property, get_property in Kn.
      destruct (zget (p_code mp) (o_props o)); discriminate.
    + eexists. eexists. split; [exact X|]. split; [discriminate|]. cbn [o_props]. cbn [snd] in K, K2. congruence.
Qed.

Lemma L_C117_unknown_boundary : forall h o req mp, o_handler o = HUser h -> plain req -> m_ESV req = 0x6E -> m_sets req = [] -> m_gets req = [mp] ->
  zget (p_code mp) (o_props o) = None -> snd (h_read h (o_calls o) (o_props o) None) = Ok true ->
  snd (obj_message_received o req) = Err AttributeError.
Proof.
  intros h o req mp H P E Es Eg G B. rewrite received_wr; [|rewrite H; discriminate|exact E]. rewrite Es, Eg. cbn [do_loop].
  unfold do_read_wr, get_property, read_requested. rewrite H, G. destruct (h_read h (o_calls o) (o_props o) None) as [ps r]. cbn [snd] in B. subst r. reflexivity.
Qed.
(** The answers of reads are determined. *)
Lemma L_C117_determined : forall h wr x l x1 out1 x2 out2,
  u_all (u_read h wr) x l x1 out1 -> u_all (u_read h wr) x l x2 out2 -> x1 = x2 /\ out1 = out2.
Proof.
  intros h wr.
  assert (D : forall x mp x1 r1 x2 r2, u_read h wr x mp x1 r1 -> u_read h wr x mp x2 r2 -> x1 = x2 /\ r1 = r2).
  { intros x mp x1 r1 x2 r2 A B.
    destruct A as [n ps mp W1 G1|n ps mp p ps' d G1 E1 D1 N1|n ps mp p ps' G1 E1|n ps mp p ps' e G1 E1|n ps mp ps' b W1 G1 E1];
    inversion B; subst; try congruence; repeat match goal with
      | X : zget _ _ = Some ?p, Y : zget _ _ = Some ?q |- _ => assert (q = p) by congruence; subst; clear Y
      | X : h_read _ _ _ _ = _, Y : h_read _ _ _ _ = _ |- _ => rewrite X in Y; injection Y; intros; subst; clear Y
      end; try discriminate; split; try reflexivity.
    assert (d = d0) as ->; [|reflexivity]. destruct (zget (p_code mp) ps'0) as [q|] eqn:Gq.
    - rewrite (D1 q eq_refl). symmetry. match goal with X : forall q, _ = Some q -> d0 = _ |- _ => exact (X q eq_refl) end.
    - rewrite (N1 eq_refl). symmetry. match goal with X : _ = None -> d0 = _ |- _ => exact (X eq_refl) end. }
  intros x l x1 out1 x2 out2 A. revert x2 out2. induction A as [x|x mp l y rp b x1 out S1 A IH|x mp l y e S1]; intros x2 out2 B; inversion B; subst.
  - split; reflexivity.
  - match goal with X : u_read h wr x mp _ (Ok _) |- _ => destruct (D _ _ _ _ _ _ S1 X) as (<- & Q); injection Q; intros; subst end.
    match goal with X : u_all _ y l _ _ |- _ => destruct (IH _ _ X) as (-> & ->) end. split; reflexivity.
  - match goal with X : u_read h wr x mp _ (Err _) |- _ => destruct (D _ _ _ _ _ _ S1 X) as (_ & Q); discriminate Q end.
  - match goal with X : u_read h wr x mp _ (Ok _) |- _ => destruct (D _ _ _ _ _ _ S1 X) as (_ & Q); discriminate Q end.
  - match goal with X : u_read h wr x mp _ (Err _) |- _ => destruct (D _ _ _ _ _ _ S1 X) as (<- & Q); injection Q; intros; subst end. split; reflexivity.
Qed.
