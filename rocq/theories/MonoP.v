(** Lemmas for C72. *)
From Verif Require Import PyBase BytesM EsvM MsgM PropM ObjM DbData DbM NodeM LocalM DictP SpecObj SpecReq SpecDb SpecNode SpecProf ObjP MapP ReqP DbP NodeP ProfP MonoM SpecMono.

Definition mono (o : obj) : Prop := a_light mono_handler o.

Lemma set_status_get v ps c : zget c (set_status v ps) =
  if c =? 0x80 then option_map (set_op_data (from_int_n v 1)) (zget c ps) else zget c ps.
Proof.
  unfold set_status, OPERATION_STATUS. destruct (zget 0x80 ps) as [p|] eqn:E.
  - rewrite (dget_dset Z.eqb zeqb_eq). destruct (Z.eqb_spec c 0x80) as [->|]; [rewrite E|]; reflexivity.
  - destruct (Z.eqb_spec c 0x80) as [->|]; [rewrite E|]; reflexivity.
Qed.
(** An object with the same handler, and properties under the same codes. *)
Lemma mono_props o o' : mono o -> o_handler o' = o_handler o ->
  (forall c p, get_property c o' = Some p -> exists q, get_property c o = Some q /\ op_code p = op_code q) -> mono o'.
Proof. intros (H & W) E K. split; [congruence|]. intros c p G. destruct (K c p G) as (q & G' & ->). exact (W c q G'). Qed.
Lemma status_store c d o : status (store c d o) = if c =? 0x80 then option_map (fun _ => d) (status o) else status o.
Proof. unfold status, store. rewrite set_property_data_get. destruct (c =? 0x80); [destruct (get_property 0x80 o); reflexivity|reflexivity]. Qed.
Lemma mono_store c d o : mono o -> mono (store c d o).
Proof.
  intros M. apply (mono_props o); [exact M|apply store_handler|]. intros k p G. unfold store in G. rewrite set_property_data_get in G.
  destruct (c =? k); [|eauto]. destruct (get_property k o) as [q|]; [|discriminate]. injection G as <-. exists q. split; [reflexivity|destruct q; reflexivity].
Qed.
Lemma mono_call ps o : mono o -> (forall c, zget c ps = get_property c o) -> mono (after_call ps o) /\ status (after_call ps o) = status o.
Proof.
  intros M E. split.
  - apply (mono_props o); [exact M|reflexivity|]. intros c p G. unfold get_property in G at 1. cbn [after_call o_props] in G. rewrite E in G. eauto.
  - unfold status, get_property. cbn [after_call o_props]. rewrite E. reflexivity.
Qed.
Lemma mono_set_status v o : mono o -> mono (after_call (set_status v (o_props o)) o) /\
  status (after_call (set_status v (o_props o)) o) = option_map (fun _ => from_int_n v 1) (status o).
Proof.
  intros M. split.
  - apply (mono_props o); [exact M|reflexivity|]. intros c p G. unfold get_property in G at 1. cbn [after_call o_props] in G. rewrite set_status_get in G. fold (get_property c o) in G.
    destruct (c =? 0x80); [|eauto]. destruct (get_property c o) as [q|]; [|discriminate]. injection G as <-. exists q. split; [reflexivity|destruct q; reflexivity].
  - unfold status at 1, get_property. cbn [after_call o_props]. rewrite set_status_get. cbn [Z.eqb Pos.eqb]. unfold status, get_property. destruct (zget 128 (o_props o)); reflexivity.
Qed.

Definition raises (d : list Z) (w : list Z) : Prop := length d = 1%nat /\ w = [].
Lemma mono_do_write o mp o' r : mono o -> do_write o mp = (o', r) -> mono o' /\
  status o' = (if p_code mp =? 0x80 then option_map (fun d => light d [p_data mp]) (status o) else status o) /\
  match r with
  | Err e => e = IndexError /\ p_code mp = 0x80 /\ exists d, status o = Some d /\ raises d (p_data mp)
  | Ok _ => p_code mp = 0x80 -> forall d, status o = Some d -> ~ raises d (p_data mp)
  end.
Proof.
  intros M H. pose proof M as (Hd & W). unfold do_write in H. destruct (get_property (p_code mp) o) as [p|] eqn:G.
  2:{ injection H as <- <-. split; [exact M|]. destruct (Z.eqb_spec (p_code mp) 0x80) as [E|N]; [|split; [reflexivity|intros C; contradiction]].
      rewrite E in G. unfold status. rewrite G. split; [reflexivity|]. cbn. intros _ d C. discriminate. }
  unfold write_requested in H. rewrite Hd in H. cbn [mono_handler h_write] in H. unfold mono_handler in H. cbn [h_write] in H. unfold mono_write in H. rewrite (W _ _ G) in H.
  change OPERATION_STATUS with 0x80 in H. destruct (mono_call (o_props o) o M (fun c => eq_refl)) as (M1 & S1).
  destruct (Z.eqb_spec (p_code mp) 0x80) as [E|N].
  - assert (St : status o = Some (op_data p)) by (unfold status; rewrite <- E, G; reflexivity). rewrite St. cbn [option_map].
    destruct (Z.eqb_spec (zlen (op_data p)) 1) as [L|L]; cbn [negb] in H.
    + assert (exists y, op_data p = [y]) as (y & Ey).
      { unfold zlen in L. destruct (op_data p) as [|y [|z l]]; cbn [length] in L; try lia. eauto. }
      rewrite Ey. cbn [light]. destruct (p_data mp) as [|x l] eqn:Ew.
      * injection H as <- <-. split; [exact M1|]. rewrite S1, St, Ey. split; [reflexivity|]. split; [reflexivity|]. split; [exact E|]. exists [y]. split; [reflexivity|split; reflexivity].
      * change STATUS_ON with 0x30 in H. change STATUS_OFF with 0x31 in H. unfold on_offb.
        assert (NR : p_code mp = 0x80 -> forall d, Some [y] = Some d -> ~ raises d (x :: l)) by (intros _ d _ (_ & C); discriminate).
        assert (Fin : forall v, mono (store (p_code mp) (x :: l) (after_call (set_status v (o_props o)) o)) /\ status (store (p_code mp) (x :: l) (after_call (set_status v (o_props o)) o)) = Some (x :: l)).
        { intros v. destruct (mono_set_status v o M) as (M2 & S2). split; [apply mono_store; exact M2|]. rewrite status_store, E. cbn [Z.eqb Pos.eqb]. rewrite S2, St. reflexivity. }
        destruct (Z.eqb_spec x 0x30) as [->|N1]; cbn [negb andb orb] in *.
        { injection H as <- <-. destruct (Fin 0x30) as (A & B). auto. }
        destruct (Z.eqb_spec x 0x31) as [->|N2]; cbn [negb andb orb] in *.
        { injection H as <- <-. destruct (Fin 0x31) as (A & B). auto. }
        injection H as <- <-. rewrite S1, St, Ey. auto.
    + injection H as <- <-. rewrite S1, St. split; [exact M1|]. split; [f_equal; unfold zlen in L; destruct (op_data p) as [|y [|z l]]; cbn [light]; try reflexivity; cbn in L; lia|].
      intros _ d [= <-] (C & _). apply L. unfold zlen. rewrite C. reflexivity.
  - unfold get_property in G. rewrite G in H. destruct (is_write_enabled p); injection H as <- <-.
    + split; [apply mono_store; exact M1|]. rewrite status_store, S1. replace (p_code mp =? 0x80) with false by lia. split; [reflexivity|intros C; contradiction].
    + split; [exact M1|]. split; [exact S1|intros C; contradiction].
Qed.

Lemma mono_do_read o mp o' r (wr : bool) : mono o -> (if wr then do_read_wr else do_read) o mp = (o', r) -> mono o' /\ status o' = status o.
Proof.
  intros M H. pose proof M as (Hd & W). destruct (mono_call (o_props o) o M (fun c => eq_refl)) as (M1 & S1).
  assert (R : forall p, exists x, read_requested o p = (after_call (o_props o) o, x)).
  { intros p. unfold read_requested. rewrite Hd. unfold mono_handler. cbn [h_read]. unfold mono_read. destruct p as [p|]; [destruct (zget (op_code p) (o_props o))|]; eauto. }
  destruct wr; unfold do_read_wr, do_read in H.
  - destruct (R (get_property (p_code mp) o)) as (x & Ex). rewrite Ex in H. destruct x as [[]|]; [destruct (get_property (p_code mp) o)|..]; injection H as <- <-; auto.
  - destruct (get_property (p_code mp) o) as [p|]; [|injection H as <- <-; auto]. destruct (R (Some p)) as (x & Ex). rewrite Ex in H. destruct x as [[]|]; injection H as <- <-; auto.
Qed.
Lemma light_app d a b : (forall w, In w a -> w <> []) -> light d (a ++ b) = light (light d a) b.
Proof.
  revert d. induction a as [|w a IH]; intros d N; [reflexivity|]. cbn [app light]. assert (Nw : w <> []) by (apply N; now left).
  assert (N' : forall w, In w a -> w <> []) by (intros; apply N; now right).
  destruct d as [|y [|z d]]; [apply IH, N'| |apply IH, N']. destruct w as [|x w]; [congruence|]. destruct (on_offb x); apply IH, N'.
Qed.
Definition to80 (l : list prop) : list (list Z) := map p_data (filter (fun mp => p_code mp =? 0x80) l).
Lemma light_step d w r : ~ raises d w -> light d (w :: r) = light (light d [w]) r.
Proof.
  intros N. cbn [light]. destruct d as [|y [|z d]]; [reflexivity| |reflexivity]. destruct w as [|x w]; [exfalso; apply N; split; reflexivity|]. destruct (on_offb x); reflexivity.
Qed.
Lemma light_raise d w r : raises d w -> light d (w :: r) = d.
Proof. intros (L & ->). destruct d as [|y [|z d]]; try discriminate. reflexivity. Qed.
Lemma mono_writes l : forall o o' r, mono o -> do_loop do_write o l = (o', r) -> mono o' /\
  status o' = option_map (fun d => light d (to80 l)) (status o) /\ (forall e, r = Err e -> e = IndexError).
Proof.
  induction l as [|mp l IH]; intros o o' r M H; cbn [do_loop] in H.
  - injection H as <- <-. split; [exact M|]. split; [destruct (status o); reflexivity|discriminate].
  - destruct (do_write o mp) as [o1 r1] eqn:E. destruct (mono_do_write o mp o1 r1 M E) as (M1 & S1 & K). unfold to80. cbn [filter].
    destruct r1 as [[rp acc]|e].
    + destruct (do_loop do_write o1 l) as [o2 r2] eqn:E2. destruct (IH o1 o2 r2 M1 E2) as (M2 & S2 & R2).
      assert (X : o' = o2 /\ (forall e, r = Err e -> r2 = Err e)). { destruct r2 as [[rps n]|e2]; injection H as <- <-; split; try reflexivity; try discriminate; auto. }
      destruct X as (-> & X). split; [exact M2|]. split; [|intros e Er; apply R2, X, Er]. rewrite S2, S1. destruct (Z.eqb_spec (p_code mp) 0x80) as [C|C]; [|reflexivity].
      cbn [map]. destruct (status o) as [d|] eqn:Sd; [|reflexivity]. cbn [option_map]. f_equal. symmetry. apply light_step. apply K; auto.
    + injection H as <- <-. destruct K as (-> & C & d & Sd & R). split; [exact M1|]. rewrite S1, Sd, C. cbn [Z.eqb Pos.eqb map option_map]. split; [|congruence].
      f_equal. rewrite !light_raise by exact R. reflexivity.
Qed.
Lemma mono_reads (wr : bool) l : forall o o' r, mono o -> do_loop (if wr then do_read_wr else do_read) o l = (o', r) -> mono o' /\ status o' = status o.
Proof.
  induction l as [|mp l IH]; intros o o' r M H; cbn [do_loop] in H.
  - injection H as <- <-. auto.
  - destruct ((if wr then do_read_wr else do_read) o mp) as [o1 r1] eqn:E. destruct (mono_do_read o mp o1 r1 wr M E) as (M1 & S1).
    destruct r1 as [[rp acc]|e]; [|injection H as <- <-; auto]. destruct (do_loop _ o1 l) as [o2 r2] eqn:E2. destruct (IH o1 o2 r2 M1 E2) as (M2 & S2).
    rewrite S1 in S2. destruct r2 as [[rps n]|e2]; injection H as <- <-; auto.
Qed.

Ltac esvs H := repeat match type of H with context [?a =? ?b] => destruct (Z.eqb_spec a b) end; try discriminate H.

Lemma mono_not_none o : mono o -> o_handler o <> HNone.
Proof. intros (-> & _). discriminate. Qed.
Lemma writes_none m : is_request (m_ESV m) = false -> status_writes m = [].
Proof.
  unfold status_writes, writes_of. intros R. destruct (Z.eqb_spec (m_ESV m) 0x60) as [E|]; [rewrite E in R; discriminate|]. destruct (Z.eqb_spec (m_ESV m) 0x61) as [E|]; [rewrite E in R; discriminate|].
  destruct (Z.eqb_spec (m_ESV m) 0x6E) as [E|]; [rewrite E in R; discriminate|]. reflexivity.
Qed.
Lemma mono_step o m : mono o -> mono (obj_step o m) /\ status (obj_step o m) = option_map (fun d => light d (status_writes m)) (status o).
Proof.
  intros M. unfold obj_step, obj_message_received. assert (I : option_map (fun d => light d []) (status o) = status o) by (destruct (status o); reflexivity).
  destruct (is_request (m_ESV m)) eqn:R; cbn [negb].
  2:{ cbn [fst]. rewrite (writes_none m R), I. auto. }
  pose proof M as (Hd & _). rewrite Hd. unfold mono_handler. 
  destruct (is_write_read_request (m_ESV m)) eqn:WR.
  - assert (E6 : m_ESV m = 0x6E) by (unfold is_write_read_request in WR; esvs WR; assumption). 
    assert (SW : status_writes m = to80 (m_sets m)) by (unfold status_writes, writes_of; rewrite E6; reflexivity).
    destruct (do_loop do_write o (m_sets m)) as [o1 r1] eqn:E1. destruct (mono_writes _ _ _ _ M E1) as (M1 & S1 & _). rewrite SW.
    destruct r1 as [[sets n]|e]; [|auto]. destruct (do_loop do_read_wr o1 (m_gets m)) as [o2 r2] eqn:E2. destruct (mono_reads true _ _ _ _ M1 E2) as (M2 & S2). rewrite S1 in S2.
    destruct r2 as [[gets k]|e]; [|auto]. destruct (response_esv _ _); auto.
  - unfold do_plain. destruct (is_read_request (m_ESV m)) eqn:RR; [|destruct (is_write_request (m_ESV m)) eqn:WQ].
    + assert (SW : status_writes m = []).
      { unfold status_writes, writes_of. unfold is_read_request in RR; esvs RR; unfold is_write_read_request in WR; esvs WR; try contradiction; match goal with E : m_ESV m = _ |- _ => rewrite E end; reflexivity. }
      rewrite SW, I. destruct (do_loop do_read o (m_props m)) as [o1 r1] eqn:E1. destruct (mono_reads false _ _ _ _ M E1) as (M1 & S1).
      destruct r1 as [[ps n]|e]; [|auto]. destruct (response_esv _ _); auto.
    + assert (SW : status_writes m = to80 (m_props m)).
      { unfold status_writes, writes_of. unfold is_write_request in WQ; esvs WQ; unfold is_write_read_request in WR; esvs WR; try contradiction; match goal with E : m_ESV m = _ |- _ => rewrite E end; reflexivity. }
      rewrite SW. destruct (do_loop do_write o (m_props m)) as [o1 r1] eqn:E1. destruct (mono_writes _ _ _ _ M E1) as (M1 & S1 & _).
      destruct r1 as [[ps n]|e]; [|auto]. destruct (response_esv _ _); auto.
    + assert (SW : status_writes m = []).
      { unfold status_writes, writes_of. unfold is_write_request in WQ; esvs WQ. unfold WRITE_REQUEST, WRITE_READ_REQUEST, WRITE_REQUEST_RESPONSE_REQUIRED in *. replace ((m_ESV m =? 96) || (m_ESV m =? 97)) with false by lia. replace (m_ESV m =? 110) with false by lia. reflexivity. }
      rewrite SW, I, loop_skip. destruct (response_esv _ _); auto.
Qed.

Lemma mono_run ms : forall o, mono o -> mono (obj_run o ms) /\
  status (obj_run o ms) = option_map (fun d => fold_left light (map status_writes ms) d) (status o).
Proof.
  induction ms as [|m ms IH]; intros o M; cbn [obj_run fold_left map].
  - split; [exact M|destruct (status o); reflexivity].
  - destruct (mono_step o m M) as (M1 & S1). destruct (IH _ M1) as (M2 & S2). split; [exact M2|]. unfold obj_run in S2. rewrite S2, S1. destruct (status o); reflexivity.
Qed.
(** ** C72 *)
Lemma L_C72_exact : forall o ms, a_light mono_handler o ->
  status (obj_run o ms) = option_map (fun d => fold_left light (map status_writes ms) d) (status o).
Proof. intros o ms M. apply (mono_run ms o M). Qed.

Lemma on_offb_spec x : on_offb x = true <-> on_off x.
Proof. unfold on_offb, on_off. lia. Qed.
Lemma light_first ws : forall x l, on_off x -> exists y l', light (x :: l) ws = y :: l' /\ on_off y.
Proof.
  induction ws as [|w ws IH]; intros x l X; cbn [light]; [eauto|]. destruct l as [|z l]; [|auto].
  destruct w as [|y w]; [eauto|]. destruct (on_offb y) eqn:E; [|auto]. apply IH. now apply on_offb_spec.
Qed.
Lemma L_C72_first_byte : forall o ms x l, a_light mono_handler o -> status o = Some (x :: l) -> on_off x ->
  exists y l', status (obj_run o ms) = Some (y :: l') /\ on_off y.
Proof.
  intros o ms x l M S X. rewrite (L_C72_exact o ms M), S. cbn [option_map]. clear S M. revert x l X. induction ms as [|m ms IH]; intros x l X; cbn [map fold_left]; [eauto|].
  destruct (light_first (status_writes m) x l X) as (y & l' & -> & Y). exact (IH y l' Y).
Qed.
(** The last valid one of a list of one-byte writes. *)
Lemma light_bytes ws : forall x, Forall (fun w => length w = 1%nat) ws ->
  light [x] ws = [last (filter on_offb (concat ws)) x].
Proof.
  induction ws as [|w ws IH]; intros x F; [reflexivity|]. apply Forall_cons_iff in F as (L & F). destruct w as [|y [|z w]]; try discriminate. cbn [light concat app filter].
  destruct (on_offb y) eqn:E; [|exact (IH x F)]. rewrite (IH y F). f_equal. destruct (filter on_offb (concat ws)) as [|a l] eqn:Ef; [reflexivity|]. 
  change (last (a :: l) y = last (a :: l) x). clear. revert a. induction l as [|b l IHl]; intros a; [reflexivity|]. exact (IHl b).
Qed.
Lemma last_last {A} (l1 l2 : list A) x : last l2 (last l1 x) = last (l1 ++ l2) x.
Proof.
  revert x. induction l1 as [|a l1 IH]; intros x; [reflexivity|]. destruct l1 as [|b l1].
  - cbn [app]. destruct l2 as [|c l2]; [reflexivity|]. change (last (c :: l2) a = last (c :: l2) x). clear. revert c. induction l2 as [|d l2 IHl]; intros c; [reflexivity|]. exact (IHl d).
  - exact (IH x).
Qed.
Lemma L_C72_status_partial : forall o ms x, a_light mono_handler o -> status o = Some [x] -> on_off x ->
  (forall m w, In m ms -> In w (status_writes m) -> length w = 1%nat) ->
  exists y, status (obj_run o ms) = Some [y] /\ on_off y /\
  y = last (filter on_offb (concat (concat (map status_writes ms)))) x.
Proof.
  intros o ms x M S X F. rewrite (L_C72_exact o ms M), S. cbn [option_map]. clear S M.
  assert (K : forall x, fold_left light (map status_writes ms) [x] = [last (filter on_offb (concat (concat (map status_writes ms)))) x]).
  { induction ms as [|m ms IH]; intros z; [reflexivity|]. cbn [map fold_left concat]. rewrite light_bytes by (apply Forall_forall; intros w I; apply (F m w); [now left|exact I]).
    rewrite IH by (intros m' w I J; apply (F m' w); [now right|exact J]). rewrite concat_app, filter_app. f_equal. apply last_last. }
  rewrite K. eexists. split; [reflexivity|]. split; [|reflexivity].
  set (l := concat (concat (map status_writes ms))). clearbody l. clear K F ms. assert (G : Forall on_off (filter on_offb l)) by (apply Forall_forall; intros y I; apply filter_In in I as (_ & I); now apply on_offb_spec).
  induction G as [|a l' A G IH]; [exact X|]. destruct l' as [|b l']; [exact A|exact IH].
Qed.
Lemma light_stuck ws d : length d <> 1%nat -> light d ws = d.
Proof. intros L. induction ws as [|w ws IH]; [reflexivity|]. destruct d as [|a [|b d]]; cbn [light length] in *; [exact IH|contradiction|exact IH]. Qed.
Lemma L_C72_stuck_refuted : 
  (* a write of two bytes is stored ... *)
  (forall o x y m, a_light mono_handler o -> status o = Some [x] -> m_ESV m = 0x60 \/ m_ESV m = 0x61 -> m_props m = [mkprop 0x80 [0x30; y]] ->
     status (obj_step o m) = Some [0x30; y]) /\
  (* ... and after that no message changes the status *)
  (forall o d ms, a_light mono_handler o -> status o = Some d -> length d <> 1%nat -> status (obj_run o ms) = Some d).
Proof.
  split.
  - intros o x y m M S E P. destruct (mono_step o m M) as (_ & ->). rewrite S. cbn [option_map]. unfold status_writes, writes_of. replace ((m_ESV m =? 96) || (m_ESV m =? 97)) with true by lia. rewrite P. reflexivity.
  - intros o d ms M S L. rewrite (L_C72_exact o ms M), S. cbn [option_map]. f_equal. induction (map status_writes ms) as [|ws l IH]; [reflexivity|]. cbn [fold_left]. rewrite light_stuck by exact L. exact IH.
Qed.
Lemma L_C72_empty_refuted : forall o x m l, a_light mono_handler o -> status o = Some [x] -> m_ESV m = 0x60 \/ m_ESV m = 0x61 -> m_props m = mkprop 0x80 [] :: l ->
  snd (obj_message_received o m) = Err IndexError.
Proof.
  intros o x m l M S E P. pose proof M as (Hd & _). unfold obj_message_received. assert (R : is_request (m_ESV m) = true) by (destruct E as [-> | ->]; reflexivity). rewrite R. cbn [negb].
  rewrite Hd. unfold mono_handler. replace (is_write_read_request (m_ESV m)) with false by (destruct E as [-> | ->]; reflexivity).
  replace (do_plain (m_ESV m)) with do_write by (destruct E as [-> | ->]; reflexivity). rewrite P. cbn [do_loop].
  destruct (do_write o (mkprop 0x80 [])) as [o1 r1] eqn:E1. destruct (mono_do_write _ _ _ _ M E1) as (_ & _ & K). destruct r1 as [rr|e].
  - exfalso. apply (K eq_refl [x] S). split; reflexivity.
  - destruct K as (-> & _). reflexivity.
Qed.
Lemma new_light : forall (PS : PySet) r, exists s o, new_mono_node r = (s, Ok true) /\ zget 0x029101 (ln_objs s) = Some o /\
  a_light mono_handler o /\ exists q, get_property 0x80 o = Some q /\ op_data q = [] /\ can_read q = true.
Proof.
  intros PS r. unfold new_mono_node, new_local_node. destruct (new_local_ok false r) as (s0 & -> & L & K & _).
  unfold new_mono. destruct (L_C56_standard_properties PS (PInt 0x029101) 0x029101 eq_refl) as (o & Eo & C & _ & G). change (PInt MONO_CODE) with (PInt 0x029101). rewrite Eo.
  set (o1 := set_request_handler mono_handler o). assert (C1 : o_code o1 = 0x029101) by exact C.
  assert (Gs : forall c, get_property c o1 = get_property c o) by reflexivity.
  destruct L as (I & W & N & p & Gp & P & S). unfold local_add_object. rewrite C1. change (0x029101 =? NODE_PROFILE_CODE) with false. cbn iota.
  cbn [node_add_object fst]. rewrite C1. set (s1 := set_ln_node _ s0).
  assert (E : ln_objs s1 = zset 0x029101 o1 (ln_objs s0)) by reflexivity.
  destruct (update_profile_ok s1 p) as (p' & -> & _ & _).
  - exact I.
  - intros k x H. rewrite E in H. apply (in_dset Z.eqb) in H.
    destruct H as [H|[H|(a & Ha & H)]]; [congruence|now apply W|]. injection H as -> ->. lia.
  - rewrite E. now apply znodup_zset.
  - rewrite E, zget_zset_other by (unfold NP; discriminate). exact Gp.
  - exact P.
  - eexists _, o1. split; [reflexivity|]. split.
    { cbn [put_obj ln_objs ln_node set_ln_node n_objs]. rewrite zget_zset_other by (unfold NP; discriminate). fold (ln_objs s1). rewrite E. apply zget_zset_same. }
    split.
    { split; [reflexivity|]. intros c q Gq. rewrite Gs in Gq. specialize (G c). destruct (row_for c _) as [rw|] eqn:Rw; [|congruence]. destruct G as (q' & Gq' & Mr). assert (q' = q) by congruence. subst q'.
      destruct Mr as (-> & _). unfold row_for in Rw. apply find_some in Rw as (_ & Rw). now apply Z.eqb_eq in Rw. }
    rewrite Gs. specialize (G 0x80). change (row_for 0x80 (object_rows (group_of 0x029101) (class_of 0x029101))) with (Some (0x80, (r_r, r_r, r_r))) in G.
    destruct G as (q & Gq & (_ & Mg & _)). exists q. split; [exact Gq|]. split; [|unfold can_read; rewrite Mg; reflexivity].
    refine (L_C56_no_data PS (PInt 0x029101) 0x029101 o eq_refl Eo 0x80 q Gq _). intros [H|[H|[H|[]]]]; discriminate.
Qed.
Lemma L_C72_new : forall (PS : PySet) r, exists s o, new_mono_node r = (s, Ok true) /\ zget 0x029101 (ln_objs s) = Some o /\
  a_light mono_handler o /\ status o = Some [].
Proof.
  intros PS r. destruct (new_light PS r) as (s & o & E & G & M & q & Gq & D & _). exists s, o. split; [exact E|]. split; [exact G|]. split; [exact M|]. unfold status. rewrite Gq. cbn. congruence.
Qed.
Lemma switch_status v s o : zget 0x029101 (ln_objs s) = Some o -> a_light mono_handler o -> status o <> None ->
  exists o', zget 0x029101 (ln_objs (switch v s)) = Some o' /\ a_light mono_handler o' /\ status o' = Some (from_int_n v 1).
Proof.
  intros G M S. unfold switch. change MONO_CODE with 0x029101. rewrite G. eexists. split; [cbn [put_obj ln_objs ln_node set_ln_node n_objs]; apply zget_zset_same|].
  destruct (mono_set_status v o M) as ((A & B) & C). split; [split; [exact A|exact B]|]. transitivity (status (after_call (set_status v (o_props o)) o)); [reflexivity|]. rewrite C. destruct (status o); [reflexivity|contradiction].
Qed.
Lemma local_start_objs w tr s l s' tr' r : local_start w tr s l = (s', tr', r) -> ln_objs s' = ln_objs s.
Proof. unfold local_start. destruct (mgr_start w tr (ln_mgr s) []) as [[g t] [[]|]]; intros H; injection H as <- <- <-; reflexivity. Qed.
Lemma L_C72_switched : forall w tr s o, zget 0x029101 (ln_objs s) = Some o -> a_light mono_handler o -> status o <> None ->
  (forall s' tr' r, mono_start w tr s = (s', tr', r) -> exists o', zget 0x029101 (ln_objs s') = Some o' /\ a_light mono_handler o' /\ status o' = Some [0x30]) /\
  (forall s' tr' r, mono_stop tr s = (s', tr', r) -> exists o', zget 0x029101 (ln_objs s') = Some o' /\ a_light mono_handler o' /\ status o' = Some [0x31]).
Proof.
  intros w tr s o G M S. split; intros s' tr' r H.
  - unfold mono_start in H. rewrite (local_start_objs _ _ _ _ _ _ _ H). exact (switch_status 0x30 s o G M S).
  - unfold mono_stop, local_stop in H. destruct (mgr_stop tr _) as [[g t] b]. injection H as <- <- <-. exact (switch_status 0x31 s o G M S).
Qed.
