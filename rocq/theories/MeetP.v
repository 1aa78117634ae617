(** Lemmas for C115. *)
From Verif Require Import PyBase BytesM EsvM MsgM PropM ObjM DbData DbM NodeM LocalM CtrlM
  SpecWire SpecObj SpecReq SpecDb SpecNode SpecProf SpecLocal SpecSrv SpecCtrl SpecEnd SpecLife SpecSelf SpecSess SpecDisc SpecGroup SpecSeek SpecMany SpecMulti SpecMeet
  DictP BytesP WireP CodecP ObjP MapP ReqP DbP NodeP ProfP LocalP AnswerP SrvP CtrlP EndP NetP LifeP SelfP SessP DiscP GroupP SeekP FieldP ManyP MultiP.
From Verif Require Import SpecReq.
Require Import ZifyBool Permutation.

(** ** The life of a node goes on while it hears datagrams *)
Definition lives {PS : PySet} (d0 d : site) : Prop := t_os d = t_os d0 /\ t_addr d = t_addr d0 /\
  forall x l, turns (t_os d0) x l (t_node d0, t_tr d0) -> turns (t_os d0) x l (t_node d, t_tr d).
Lemma lives_hears (PS : PySet) d0 d j b a : bytes_ok b -> lives d0 d -> lives d0 (hears d j b a).
Proof.
  intros B (E1 & E2 & E3). unfold hears. destruct (deliver (t_os d) (t_tr d) (t_node d) j (b, a)) as [s tr] eqn:D. split; [exact E1|]. split; [exact E2|]. cbn [t_node t_tr].
  intros x l H. specialize (E3 x l H). pose proof (turn_act (t_os d0) x l (t_node d, t_tr d) (ARecv j (b, a)) E3 B) as Y. cbn [act_step] in Y. rewrite app_nil_r in Y. rewrite E1 in D. rewrite D in Y. exact Y.
Qed.
Lemma lives_run (PS : PySet) sched : forall x, Forall bytes_ok (a_mail x) -> Forall2 lives (a_devs x) (a_devs (area_run sched x)) /\ a_mail (area_run sched x) = a_mail x.
Proof.
  induction sched as [|e l IH] using rev_ind; intros x B.
  - split; [|reflexivity]. cbn. induction (a_devs x); constructor; [split; [reflexivity|]; split; auto|assumption].
  - unfold area_run. rewrite fold_left_app. cbn [fold_left]. fold (area_run l x). destruct (IH x B) as (F & M). set (y := area_run l x) in *. destruct e as [k j i|k j i]; cbn [area_step].
    + pose proof (forall2_nth _ _ _ k F) as N. destruct (nth_error (a_devs y) k) as [d|] eqn:K; [|auto]. destruct (nth_error (a_mail y) i) as [b|] eqn:Mb; [|auto]. cbn [a_devs a_mail]. split; [|exact M].
      destruct (nth_error (a_devs x) k) as [d0|] eqn:K0; [|contradiction].
      assert (Bb : bytes_ok b) by (rewrite Forall_forall in B; apply B; rewrite <- M; exact (nth_error_In _ _ Mb)).
      pose proof (lives_hears PS d0 d j b (t_addr (a_ctl y)) Bb N) as H. set (d' := hears d j b (t_addr (a_ctl y))) in *. clearbody d'. clear - F K0 H.
      revert k K0. induction F as [|p q ps qs Hpq F IH]; intros [|k] K0; cbn [nth_error upd] in *; try discriminate; [assert (p = d0) by congruence; subst; constructor; auto|constructor; eauto].
    + destruct (nth_error (a_devs y) k) as [d|]; [|auto]. destruct (nth_error _ i); auto.
Qed.

(** ** A search is a read *)
Definition seek_call : call := KRead [0xD6].
Lemma search_is_read w tr s c : ln_ctl s = Some c -> local_announce w tr s search_message = local_announce w tr s (request 0x0EF001 seek_call).
Proof. intros C. unfold local_announce. rewrite C. reflexivity. Qed.
Lemma seek_encodable : encodable (request 0x0EF001 seek_call).
Proof. split; [unfold byte_ok; cbn; lia|]. split; [cbn; lia|]. repeat constructor; unfold byte_ok; cbn; lia. Qed.
Lemma search_reads w tr s c a s' tr' r : ln_ctl s = Some c -> 0 <= g_tid (ln_mgr s) <= 65535 -> ctl_search w tr s = (s', tr', r) ->
  Forall (fun b => b = wire (as_received s a (request 0x0EF001 seek_call))) (reach MULTICAST (since tr tr')).
Proof.
  intros C T H. unfold ctl_search in H. destruct (local_announce w tr s search_message) as [[[s1 tr1] m1] r1] eqn:E. rewrite (search_is_read w tr s c C) in E.
  assert (s1 = s' /\ tr1 = tr') as (-> & ->) by (split; congruence). apply (announce_mail w tr s c a _ s' tr' m1 r1 C T); [reflexivity|exact seek_encodable|exact E].
Qed.
Lemma stocked_hosts (PS : PySet) T d l : stocked T d l -> hosts (fresh d) l.
Proof.
  intros ((c & r & s0 & added & N & Tu & E) & R & _ & L & Q & Re & _). split; [exists c, r, s0, (t_os d), added; auto|]. auto 10.
Qed.
Lemma seek_ok (PS : PySet) T d l S : stocked T d l -> T (t_addr d) = Some S -> call_ok S 0x0EF001 seek_call.
Proof.
  intros St E. destruct (hosts_ready _ _ (stocked_hosts PS T d l St)) as (codes & (L & K & _) & _). cbn [fresh t_node] in L, K.
  destruct St as (_ & _ & _ & _ & _ & _ & _ & S' & E' & M & So). assert (S' = S) by congruence. subst S'.
  destruct L as (_ & _ & _ & p & Zp & P & Sh). destruct Sh as (_ & _ & D6 & _).
  pose proof (M 0x0EF001) as Mp. change 0x0EF001 with NP in Mp at 1. rewrite Zp in Mp. destruct (S 0x0EF001) as [t|] eqn:Et; [|contradiction]. destruct Mp as (_ & _ & Cl).
  split; [lia|]. split; [exact seek_encodable|]. split; [repeat constructor|]. split; [constructor|]. split; [rewrite wire_len; cbn; lia|]. rewrite Et. split; [|exact Logic.I].
  unfold seek_call. cbn [reply map]. assert (D : show t 0xD6 = mkprop 0xD6 [] \/ exists q, t 0xD6 = Some q /\ cl_data q <> [] /\ show t 0xD6 = mkprop 0xD6 (cl_data q)).
  { unfold show. destruct (t 0xD6) as [q|] eqn:Tq; [|now left]. destruct (cl_read q); [|now left]. right. exists q. split; [reflexivity|]. split; [|reflexivity].
    specialize (Cl 0xD6). rewrite Tq in Cl. unfold get_property_data in D6. change (zget 0xD6 (o_props p)) with (get_property 0xD6 p) in D6. destruct (get_property 0xD6 p) as [y|]; [|discriminate].
    cbn [option_map] in Cl. assert (q = cell_of (o_handler p) y) as -> by congruence. cbn [cell_of cl_data]. assert (op_data y = be 1 (zlen (device_codes (dkeys (ln_objs (t_node d))))) ++ flat_map (be 3) (device_codes (dkeys (ln_objs (t_node d))))) as -> by congruence.
    rewrite be1. discriminate. }
  split.
  - rewrite wire_len. unfold wire_body. cbn [m_ESV m_props]. replace (two_blocks (if forallb (readable t) [0xD6] then 0x72 else 0x52)) with false by (destruct (forallb _ _); reflexivity).
    unfold wire_props. cbn [flat_map length]. rewrite app_nil_r. unfold wire_prop. destruct D as [-> | (q & Q & _ & ->)]; cbn [p_data p_code length]; [lia|]. pose proof (proj2 (So _ t _ q Et Q)) as Lq. unfold zlen in Lq. lia.
  - intros R. unfold empty_list. cbn [m_props]. destruct D as [E0 | (q & Q & Nq & ->)]; [|cbn [p_data]; destruct (cl_data q); [contradiction|apply andb_false_r]].
    cbn [forallb] in R. unfold readable in R. unfold show in E0. destruct (t 0xD6) as [q|] eqn:Tq; [|discriminate]. destruct (cl_read q) eqn:Rq; [|discriminate].
    (* readable: the data is that of the list *)
    exfalso. specialize (Cl 0xD6). rewrite Tq in Cl. unfold get_property_data in D6. change (zget 0xD6 (o_props p)) with (get_property 0xD6 p) in D6. destruct (get_property 0xD6 p) as [y|]; [|discriminate].
    cbn [option_map] in Cl. assert (q = cell_of (o_handler p) y) as -> by congruence. cbn [cell_of cl_data] in E0. assert (X : op_data y = be 1 (zlen (device_codes (dkeys (ln_objs (t_node d))))) ++ flat_map (be 3) (device_codes (dkeys (ln_objs (t_node d))))) by congruence.
    rewrite be1 in X. rewrite X in E0. discriminate.
Qed.

(** ** One controller searches *)
Definition kept {PS : PySet} (d0 d : site) : Prop := t_addr d = t_addr d0 /\ servers_of (t_node d) = servers_of (t_node d0).
Lemma fresh_lives (PS : PySet) d0 d : lives (fresh d0) d -> lives d0 d.
Proof. intros H. exact H. Qed.
Lemma same_reading S : same_store (store_after S 0x0EF001 seek_call) S.
Proof.
  intros code. unfold store_after. destruct (S 0x0EF001) as [t|] eqn:E.
  - destruct (Z.eqb_spec code 0x0EF001) as [->|]; [rewrite E; intros c; reflexivity|]. destruct (S code); [intros c; reflexivity|exact Logic.I].
  - destruct (S code); [intros c; reflexivity|exact Logic.I].
Qed.
Lemma mirrors_heard s S n : mirrors s (heard_store n S 0x0EF001 seek_call) -> mirrors s S.
Proof. destruct n; cbn [heard_store]; [auto|]. apply mirrors_same, same_reading. Qed.
Section One.
Context {PS : PySet}.
Variables (T : addr -> option store).
(** What a controller that began as [fst u] shows of the nodes. *)
Definition guest (devs : list site) (ls : list (list Z)) (u : peer * list move) (c : peer) : Prop :=
  y_os c = y_os (fst u) /\ y_addr c = y_addr (fst u) /\ y_srv c = y_srv (fst u) /\ y_busy c = false /\ seeker (y_node (fst u)) (y_node c) /\
  forall k d l, nth_error devs k = Some d -> nth_error ls k = Some l -> exists nd, shows (y_node c) (fst (t_addr d)) (Some nd) /\ depicts nd (t_addr d) l.
Definition heard_all (devs : list site) (u : peer * list move) : Prop := forall k d, nth_error devs k = Some d ->
  answered (length (open_ifs (y_node (fst u)))) (servers_of (t_node d)) (servers_of (y_node (fst u))) k (snd u).
Lemma stores_of devs ls : Forall2 (stocked T) devs ls -> exists Ss, Forall2 (fun d S => T (t_addr d) = Some S) devs Ss.
Proof.
  induction 1 as [|d l ds ls H F (Ss & IH)]; [exists []; constructor|]. destruct H as (_ & _ & _ & _ & _ & _ & _ & S & E & _). exists (S :: Ss). constructor; assumption.
Qed.
Lemma forall2_len {A B} (P : A -> B -> Prop) l m : Forall2 P l m -> length l = length m.
Proof. induction 1; cbn; congruence. Qed.
Lemma forall2_map_l {A B C} (P : B -> C -> Prop) (f : A -> B) l m : Forall2 (fun a c => P (f a) c) l m -> Forall2 P (map f l) m.
Proof. induction 1; constructor; auto. Qed.
Lemma forall2_of_nth {A B} (P : A -> B -> Prop) : forall l m, length l = length m -> (forall k x y, nth_error l k = Some x -> nth_error m k = Some y -> P x y) -> Forall2 P l m.
Proof.
  induction l as [|x l IH]; intros [|y m] L H; cbn in L; try discriminate; constructor; [exact (H 0%nat x y eq_refl eq_refl)|]. apply IH; [congruence|]. intros k. exact (H (S k)).
Qed.
Lemma meet_one cs devs ls u cs' ds' : newcomer (fst u) -> NoDup (map (fun d => fst (t_addr d)) devs) -> Forall2 (stocked T) devs ls -> heard_all devs u ->
  meet (cs, devs) u = (cs', ds') ->
  (exists c, cs' = cs ++ [c] /\ guest devs ls u c) /\ Forall2 kept devs ds' /\ Forall2 (stocked T) ds' ls.
Proof.
  destruct u as [c sched]. cbn [fst snd]. intros (Q & R & Cn & Ti & Li & Sv) ND F HA E. unfold meet in E. cbn [fst snd] in E.
  destruct (ln_ctl (y_node c)) as [q|] eqn:Cq; [|contradiction]. clear Cn.
  assert (Fh : Forall2 hosts (map fresh devs) ls) by (apply forall2_map_l; clear - F; induction F as [|d l ds ls H F IH]; constructor; [exact (stocked_hosts PS T d l H)|exact IH]).
  assert (NDf : NoDup (map (fun d => fst (t_addr d)) (map fresh devs))) by (rewrite map_map; exact ND).
  destruct (seek_one PS (y_os c) (y_addr c) (y_node c) (y_node c) (y_tr c) (mkround (map fresh devs) ls sched) Q R) as (Sk & Sh).
  { split; [reflexivity|]. split; [reflexivity|]. split; [exact Li|]. split; [exact Ti|eauto]. }
  { split; [exact NDf|exact Fh]. }
  unfold one_search in Sk, Sh. cbn [fst snd r_sched r_devs] in Sk, Sh.
  destruct (ctl_search (y_os c) (y_tr c) (y_node c)) as [[s1 tr1] rc] eqn:Se.
  pose proof (search_reads _ _ _ q (y_addr c) s1 tr1 rc Cq Ti Se) as Fr. destruct (search_mail _ _ _ q s1 tr1 rc Cq Ti Se) as (Fm & _).
  change (reach MULTICAST (since (y_tr c) tr1)) with (reach ("224.0.23.0"%string, 3610) (since (y_tr c) tr1)) in *. set (mail := reach ("224.0.23.0"%string, 3610) (since (y_tr c) tr1)) in *.
  set (x0 := mkarea (mksite (y_os c) (y_addr c) s1 tr1 (length tr1)) mail (map fresh devs)) in *. set (x := area_run sched x0) in *.
  assert (cs' = cs ++ [set_peer (t_node (a_ctl x)) (t_tr (a_ctl x)) false c] /\ ds' = a_devs x) as (-> & ->) by (split; [exact (eq_sym (f_equal fst E))|exact (eq_sym (f_equal snd E))]). clear E.
  split.
  - eexists. split; [reflexivity|]. unfold guest. cbn [fst snd]. do 4 (split; [reflexivity|]). cbn [set_peer y_node]. split; [exact Sk|].
    intros k d l Kd Kl. assert (Sm : zlen l <= 84) by (pose proof (forall2_nth _ _ _ k F) as N; rewrite Kd, Kl in N; apply N).
    assert (Re : replies (y_node c) (mkround (map fresh devs) ls sched) (fst (t_addr d)) (t_addr d) l).
    { exists k, (fresh d). cbn [r_devs r_lists r_sched]. rewrite nth_error_map, Kd. do 4 (split; [first [reflexivity|exact Kl]|]). split; [exact Sm|]. exact (HA k d Kd). }
    destruct (Sh (fst (t_addr d))) as [(a1 & l1 & nd & (k1 & d1 & A1 & A2 & A3 & A4 & _) & Sx & De)|(N & _)]; [|exfalso; exact (N _ _ Re)].
    cbn [r_devs r_lists] in A1, A2. rewrite nth_error_map in A1. destruct (nth_error devs k1) as [d2|] eqn:K1; [|discriminate]. cbn [option_map] in A1.
    assert (Ea : t_addr d2 = a1) by (rewrite <- A3; assert (X : d1 = fresh d2) by congruence; rewrite X; reflexivity).
    assert (k1 = k).
    { apply (proj1 (NoDup_nth_error _) ND k1 k); [rewrite map_length; apply nth_error_Some; congruence|]. rewrite !nth_error_map, K1, Kd. cbn [option_map]. congruence. }
    subst k1. assert (d2 = d /\ l1 = l) as (-> & ->) by (split; congruence). exists nd. split; [exact Sx|]. rewrite Ea. exact De.
  - destruct (stores_of devs ls F) as (Ss & FS).
    assert (Fg : Forall2 (fun d S => serves d S /\ call_ok S 0x0EF001 seek_call) (map fresh devs) Ss).
    { apply forall2_map_l. apply forall2_of_nth; [exact (forall2_len _ _ _ FS)|]. intros k d S Kd KS. pose proof (forall2_nth _ _ _ k FS) as N1. rewrite Kd, KS in N1.
      pose proof (forall2_nth _ _ _ k F) as N2. rewrite Kd in N2. destruct (nth_error ls k) as [l|]; [|contradiction]. split; [|exact (seek_ok PS T d l S N2 N1)].
      destruct N2 as (_ & _ & _ & L & Qd & Rd & Cd & S' & E' & M & So). assert (S' = S) by congruence. subst S'. unfold serves. cbn [fresh t_os t_node t_from t_tr]. auto 10. }
    assert (G : gall (y_node c) (y_addr c) mail (map fresh devs) Ss 0x0EF001 seek_call sched x).
    { apply gall_run; [exact Fr|exact Fg|]. split; [reflexivity|]. split; [reflexivity|]. split; [reflexivity|]. intros j d S0 D1 D2. exists d. split; [exact D1|].
      pose proof (forall2_nth _ _ _ j Fg) as N. rewrite D1, D2 in N. destruct N as ((_ & _ & _ & Cd & Md & _ & Fd) & _).
      unfold ginv. cbv zeta. cbn [searches filter length heard_store]. do 3 (split; [reflexivity|]). split; [lia|]. split; [reflexivity|]. split; [exact Cd|]. split; [exact Md|].
      exists []. rewrite Fd, skipn_all. split; [reflexivity|]. split; [constructor|reflexivity]. }
    destruct (lives_run PS sched x0) as (Lv & _). { cbn [x0 a_mail]. revert Fm. apply Forall_impl. intros b (t & Ht & ->). apply wire_bytes_ok; apply (search_frame t Ht). }
    fold x in Lv. destruct G as (_ & _ & Lg & G).
    assert (A : forall k d0 l d, nth_error devs k = Some d0 -> nth_error ls k = Some l -> nth_error (a_devs x) k = Some d -> kept d0 d /\ stocked T d l).
    { intros k d0 l d K0 Kl Kd. pose proof (forall2_nth _ _ _ k Lv) as N1. cbn [x0 a_devs] in N1. rewrite nth_error_map, K0, Kd in N1. cbn [option_map] in N1. apply fresh_lives in N1. destruct N1 as (L1 & L2 & L3).
      pose proof (forall2_nth _ _ _ k FS) as N3. rewrite K0 in N3. destruct (nth_error Ss k) as [S|] eqn:KS; [|contradiction].
      destruct (G k (fresh d0) S) as (d' & Kd' & _ & _ & _ & _ & Gs & Gc & Gm & _); [rewrite nth_error_map, K0; reflexivity|exact KS|]. assert (d' = d) by congruence. subst d'. cbn [fresh t_node] in Gs.
      pose proof (forall2_nth _ _ _ k F) as N2. rewrite K0, Kl in N2. destruct N2 as ((c0 & r0 & s0 & added & Nw & Tu & El) & Rg & Sm & Ld & Qd & Rd & _ & S' & E' & _ & So).
      assert (S' = S) by congruence. subst S'. split; [split; [exact L2|unfold servers_of; rewrite Gs; reflexivity]|].
      split; [exists c0, r0, s0, added; rewrite L1; auto|]. split; [exact Rg|]. split; [exact Sm|]. split; [exact (listens_same _ _ Gs Ld)|]. rewrite L1, L2. split; [exact Qd|]. split; [exact Rd|]. split; [exact Gc|].
      exists S. split; [exact E'|]. split; [exact (mirrors_heard _ _ _ Gm)|exact So]. }
    rewrite map_length in Lg. pose proof (forall2_len _ _ _ F) as Ll. split.
    + apply forall2_of_nth; [congruence|]. intros k d0 d K0 Kd. destruct (nth_error ls k) as [l|] eqn:Kl; [exact (proj1 (A k d0 l d K0 Kl Kd))|].
      exfalso. apply nth_error_None in Kl. apply nth_error_len in K0. lia.
    + apply forall2_of_nth; [congruence|]. intros k d l Kd Kl. destruct (nth_error devs k) as [d0|] eqn:K0; [exact (proj2 (A k d0 l d K0 Kl Kd))|].
      exfalso. apply nth_error_None in K0. apply nth_error_len in Kl. lia.
Qed.
End One.

(** ** All controllers *)
Section All.
Context {PS : PySet}.
Variables (T : addr -> option store) (devs : list site) (ls : list (list Z)).
Hypothesis (ND : NoDup (map (fun d => fst (t_addr d)) devs)).
Definition met (us : list (peer * list move)) (st : list peer * list site) : Prop :=
  Forall2 (guest devs ls) us (fst st) /\ Forall2 kept devs (snd st) /\ Forall2 (stocked T) (snd st) ls.
Lemma kept_addrs ds : Forall2 kept devs ds -> map t_addr ds = map t_addr devs.
Proof. clear ND. induction 1 as [|d0 d l m (E & _) F IH]; [reflexivity|]. cbn [map]. now rewrite E, IH. Qed.
Lemma kept_nth ds k d : Forall2 kept devs ds -> nth_error ds k = Some d -> exists d0, nth_error devs k = Some d0 /\ kept d0 d.
Proof. intros F K. pose proof (forall2_nth _ _ _ k F) as N. rewrite K in N. destruct (nth_error devs k) as [d0|]; [eauto|contradiction]. Qed.
Lemma met_all us : Forall2 (stocked T) devs ls -> Forall (fun u => newcomer (fst u)) us -> (forall u, In u us -> heard_all devs u) -> met us (meet_all us devs).
Proof.
  intros F. induction us as [|u us IH] using rev_ind; intros N H.
  - split; [constructor|]. split; [|exact F]. cbn. clear. induction devs; constructor; [split; reflexivity|assumption].
  - apply Forall_app in N as (N & Nu). apply Forall_inv in Nu. unfold meet_all. rewrite fold_left_app. cbn [fold_left]. fold (meet_all us devs).
    destruct (IH N (fun v I => H v (in_or_app _ _ _ (or_introl I)))) as (M1 & M2 & M3). destruct (meet_all us devs) as [cs ds]. cbn [fst snd] in *.
    destruct (meet (cs, ds) u) as [cs' ds'] eqn:E.
    destruct (meet_one T cs ds ls u cs' ds' Nu) as ((c & -> & G) & K & St); [|exact M3| |exact E|].
    + replace (map (fun d => fst (t_addr d)) ds) with (map fst (map t_addr ds)) by apply map_map. rewrite (kept_addrs ds M2), map_map. exact ND.
    + intros k d Kd. destruct (kept_nth ds k d M2 Kd) as (d0 & K0 & Ea & Es). rewrite Es. apply (H u (in_or_app us [u] u (or_intror (or_introl eq_refl))) k d0 K0).
    + split; [|split; [|exact St]]; cbn [fst snd].
      * apply Forall2_app; [exact M1|]. constructor; [|constructor]. destruct G as (G1 & G2 & G3 & G4 & G5 & G6). do 5 (split; [assumption|]).
        intros k d0 l K0 Kl. pose proof (forall2_nth _ _ _ k M2) as X. rewrite K0 in X. destruct (nth_error ds k) as [d|] eqn:Kd; [|contradiction]. destruct X as (Ea & _).
        rewrite <- Ea. exact (G6 k d l Kd Kl).
      * clear - M2 K. revert ds' K. induction M2 as [|a b l m (A1 & A2) F IH]; intros ds' K; inversion K as [|? y ? q (B1 & B2) K']; subst; constructor; [split; congruence|auto].
Qed.
End All.

(** C115 *)
Lemma L_C115_use : forall (PS : PySet) us devs ls T sv evs,
  (* controllers and nodes with different addresses; the nodes have the contents [T] *)
  Forall (fun u => newcomer (fst u)) us -> NoDup (map (fun u => y_addr (fst u)) us) ->
  NoDup (map (fun d => fst (t_addr d)) devs) -> Forall2 (stocked T) devs ls -> (forall a, T a <> None -> In a (map t_addr devs)) ->
  (forall d, In d devs -> (sv (t_addr d) < servers_of (t_node d))%nat) ->
  (* every controller hears an answer of every node to its search *)
  (forall u k d, In u us -> nth_error devs k = Some d ->
     answered (length (open_ifs (y_node (fst u)))) (servers_of (t_node d)) (servers_of (y_node (fst u))) k (snd u)) ->
  (* then, after all searches, *)
  let st := meet_all us devs in
  let x := mkmnet (map (as_peer sv) (snd st)) (fst st) [] [] in
  (* every controller shows every node *)
  (forall c k d l, In c (fst st) -> nth_error devs k = Some d -> nth_error ls k = Some l ->
     exists q nd, ln_ctl (y_node c) = Some q /\ (forall w tr, get_node w tr q (GATup (fst (t_addr d))) = Ok (Some nd)) /\
     depicts nd (t_addr d) l /\ dest_addr (DNode nd) = Some (fst (t_addr d), 3610)) /\
  (* and whatever the controllers call and the network delivers, the calls return what the stores answer *)
  (mrun_ok (mref_start T (length us)) evs ->
   exists x' o r', mnet_run x evs = (x', map (m_returned (multi_tids x)) o) /\ mref_run (mref_start T (length us)) evs = (r', o) /\
   map y_addr (y_devs x') = map t_addr devs /\
   forall v, In v (y_devs x') -> exists St, z_stores r' (y_addr v) = Some St /\ mirrors (y_node v) St).
Proof.
  intros PS us devs ls T sv evs Nu NDu NDd F Dom Sv HA st x.
  destruct (met_all T devs ls NDd us F Nu) as (M1 & M2 & M3). { intros u I k d K. exact (HA u k d I K). }
  fold st in M1, M2, M3.
  assert (Gu : forall c, In c (fst st) -> exists u, In u us /\ guest devs ls u c).
  { intros c I. destruct (In_nth_error _ _ I) as (i & Ei). pose proof (forall2_nth _ _ _ i M1) as N. rewrite Ei in N. destruct (nth_error us i) as [u|] eqn:Eu; [|contradiction]. exists u. split; [exact (nth_error_In _ _ Eu)|exact N]. }
  split.
  - intros c k d l I Kd Kl. destruct (Gu c I) as (u & _ & _ & _ & _ & _ & _ & G). destruct (G k d l Kd Kl) as (nd & (q & Cq & Fq) & De). exists q, nd. split; [exact Cq|].
    split; [intros w tr; rewrite get_node_tup; congruence|]. split; [exact De|]. cbn [dest_addr]. rewrite (depicts_ip nd _ l De). unfold node_port. rewrite (proj1 De). reflexivity.
  - intros Ok. assert (Lc : length (fst st) = length us) by (symmetry; exact (forall2_len _ _ _ M1)).
    assert (Ad : map y_addr (y_devs x) = map t_addr devs) by (cbn [x y_devs]; rewrite map_map; exact (kept_addrs devs _ M2)).
    assert (Rd : multi_ready T x).
    { assert (Ka : forall d, In d (snd st) -> exists k d0 l, nth_error devs k = Some d0 /\ nth_error ls k = Some l /\ kept d0 d /\ stocked T d l).
      { intros d I. destruct (In_nth_error _ _ I) as (k & Kd). destruct (kept_nth devs _ k d M2 Kd) as (d0 & K0 & Kp). pose proof (forall2_nth _ _ _ k M3) as N. rewrite Kd in N. destruct (nth_error ls k) as [l|] eqn:Kl; [|contradiction]. exists k, d0, l. auto. }
      split; [|split; [|split; [|split; [|split; [|split; reflexivity]]]]].
      - apply Forall_forall. cbn [x y_clis]. intros c I. destruct (Gu c I) as (u & Iu & G1 & G2 & G3 & G4 & (S1 & S2 & S3 & S4 & q & S5) & G6).
        rewrite Forall_forall in Nu. destruct (Nu u Iu) as (Q & R & _ & _ & _ & Sj). split; [rewrite G1; exact Q|]. split; [rewrite G1; exact R|]. split.
        { split; [apply S3|]. assert (Lj : (y_srv c < servers_of (y_node c))%nat) by (rewrite S1, G3; exact Sj). unfold servers_of in Lj. apply nth_error_Some in Lj.
          destruct (nth_error (g_servers (ln_mgr (y_node c))) (y_srv c)) as [v|] eqn:V; [|contradiction]. exists v. split; [exact V|]. exact (proj2 S3 _ v V). }
        split; [rewrite S5; discriminate|]. split; [|split; [exact S4|exact G4]].
        intros v Iv. cbn [x y_devs] in Iv. apply in_map_iff in Iv as (d & <- & Id). destruct (Ka d Id) as (k & d0 & l & K0 & Kl & (Ea & _) & _). destruct (G6 k d0 l K0 Kl) as (nd & (q1 & X1 & X2) & _).
        exists q1, nd. split; [exact X1|]. cbn [as_peer y_addr]. rewrite Ea. exact X2.
      - apply Forall_forall. cbn [x y_devs]. intros v Iv. apply in_map_iff in Iv as (d & <- & Id). destruct (Ka d Id) as (k & d0 & l & K0 & _ & (Ea & Es) & (_ & _ & _ & L & Q & R & C & S & E & M & So)).
        unfold ready_dev. cbn [as_peer y_os y_node y_srv y_addr]. split; [exact Q|]. split; [exact R|]. split; [|split; [exact C|exists S; auto]].
        split; [apply L|]. assert (Lj : (sv (t_addr d) < servers_of (t_node d))%nat) by (rewrite Ea, Es; apply Sv; exact (nth_error_In _ _ K0)). unfold servers_of in Lj. apply nth_error_Some in Lj.
        destruct (nth_error (g_servers (ln_mgr (t_node d))) (sv (t_addr d))) as [v|] eqn:V; [|contradiction]. exists v. split; [exact V|]. exact (proj2 L _ v V).
      - cbn [x y_clis]. replace (map y_addr (fst st)) with (map (fun u => y_addr (fst u)) us); [exact NDu|]. clear - M1. induction M1 as [|u c us cs G F IH]; [reflexivity|]. cbn [map]. rewrite IH. f_equal. symmetry. apply G.
      - rewrite Ad. apply (NoDup_map_inv fst). rewrite map_map. exact NDd.
      - rewrite Ad. exact Dom. }
    assert (Ly : length (y_clis x) = length us) by exact Lc.
    destruct (L_C97_as_stores_partial PS T x evs Rd) as (x' & o & r' & R1 & R2 & R3 & R4); [rewrite Ly; exact Ok|].
    rewrite Ly in R2. exists x', o, r'. split; [exact R1|]. split; [exact R2|]. split; [rewrite R3; exact Ad|exact R4].
Qed.

(** Without an answer to a search: the first answer to a read ends the server. *)
Lemma L_C115_unheard_boundary : forall (PS : PySet) wc wd jc jd ac an d x S code t cs c,
  quiet wc -> reliable wc -> quiet wd -> reliable wd -> dest_addr d = Some an ->
  (* a controller and a device, both online; the controller has not found the device *)
  online (x_ctl x) jc -> ln_ctl (x_ctl x) = Some c -> 0 <= g_tid (ln_mgr (x_ctl x)) <= 65535 ->
  (forall w tr, get_node w tr c (GATup (fst an)) = Ok None) ->
  online (x_dev x) jd -> ln_ctl (x_dev x) = None -> mirrors (x_dev x) S -> store_ok S ->
  (* a read of properties that may be read and of which the first is no list of devices *)
  call_ok S code (KRead cs) -> S code = Some t -> (forall k, In k cs -> readable t k = true) -> (forall k r, cs = k :: r -> k <> 0xD5 /\ k <> 0xD6) ->
  exists x' v, transact wc wd jc jd ac an (request code (KRead cs)) d x = (x', None) /\ server_at (x_ctl x') jc = Some v /\ s_alive v = false.
Proof.
  intros PS wc wd jc jd ac an d x S code t cs c Qc Rc Qd Rd Da Oc C Tc Nf Od Cd M So Ca Sc Rb Hd. pose proof Ca as (Co & En & _).
  assert (Fn : sget (fst an) (c_found c) = None) by (specialize (Nf wc []); rewrite get_node_tup in Nf; congruence).
  unfold transact. set (m := request code (KRead cs)) in *.
  destruct (post_sends wc (x_ctr x) (x_ctl x) jc ac an d m Qc Rc Da Oc (ex_intro _ c C) Tc eq_refl En) as (c' & m' & tc & C' & PB & Re). assert (c' = c) by congruence. subst c'.
  rewrite PB, Re. destruct (dev_calls PS wd (x_dtr x) (x_dev x) jd ac (x_ctl x) S code (KRead cs) Qd Rd Od Cd M So Ca) as (sd & td & Ar & _ & _ & _ & _ & An).
  fold m in Ar. rewrite Ar. unfold store_reply in An. rewrite Sc in An. cbn [reply] in An. replace (forallb (readable t) cs) with true in An by (symmetry; apply forallb_forall; exact Rb).
  destruct An as (Ga & i & n & Se & Np). rewrite (reach_one ac _ _ _ _ Se Np). set (rsp := answer_of _ _ _) in *.
  set (sc := set_ln_ctl _ _). destruct Ga as (Fr & Le & _ & Nr & Dj & El). specialize (El eq_refl).
  unfold arrive. cbn [map run]. destruct Oc as (Oi & v & V & Al & Ob).
  assert (V' : server_at sc jc = Some v) by exact V.
  destruct (node_received wc tc sc (set_from (Some an) rsp)) as [[s2 t2] r2] eqn:N.
  rewrite (hear_frame PS wc tc sc jc v (wire rsp) an rsp s2 t2 r2 V' Al Ob); [|apply wire_bytes_ok; apply Fr|exact Le|split; [exact Fr|exists []; now rewrite app_nil_r]|exact N].
  assert (Hm : received_from an (set_from (Some an) rsp)) by (exists rsp; split; [exact Fr|reflexivity]).
  pose proof (ctl_node_received PS wc tc sc (set_post (Some m') None c) an _ s2 t2 r2 eq_refl Hm N) as CN. change (is_request (m_ESV (set_from (Some an) rsp))) with (is_request (m_ESV rsp)) in CN. rewrite Nr in CN.
  destruct CN as (c3 & CR & E2). rewrite (ctl_response_eq wc tc _ an _ Qc Hm Nr) in CR. change (m_DEOJ (set_from (Some an) rsp)) with (m_DEOJ rsp) in CR. rewrite Dj in CR.
  change (empty_list (set_from (Some an) rsp)) with (empty_list rsp) in CR. rewrite El, !andb_false_r in CR. cbv zeta in CR.
  change (from_profile (set_from (Some an) rsp)) with true in CR. cbn [orb] in CR.
  assert (An : announces (set_from (Some an) rsp) = None).
  { unfold announces, carries_list. change (m_props (set_from (Some an) rsp)) with (map (show t) cs). destruct cs as [|k r]; [now destruct (_ && _)|]. cbn [map]. destruct (Hd k r eq_refl) as (H1 & H2).
    replace (list_property (show t k)) with false; [now destruct (_ && _)|]. unfold list_property. cbn [p_code show]. symmetry. apply orb_false_iff. split; apply Z.eqb_neq; assumption. }
  assert (Af : announce_found an (set_from (Some an) rsp) (set_post (Some m') None c) = set_post (Some m') None c) by (unfold announce_found; rewrite An; reflexivity).
  rewrite Af in CR. change (c_found (set_post (Some m') None c)) with (c_found c) in CR. rewrite Fn in CR.
  assert (c3 = set_post (Some m') None c /\ r2 = Err AttributeError) as (-> & ->) by (split; congruence).
  assert (G : g_servers (ln_mgr s2) = g_servers (ln_mgr (x_ctl x))) by (rewrite E2; reflexivity).
  unfold server_at in V. exists (mkworld (kill jc s2) t2 sd td), (mksrv (s_uni v) (s_if v) (s_open v) false (s_obs v)). split; [|split; [|reflexivity]].
  - assert (X : ln_ctl (kill jc s2) = Some (set_post (Some m') None c)) by (unfold kill; destruct (nth_error (g_servers (ln_mgr s2)) jc); rewrite E2; reflexivity).
    f_equal. unfold post_end. rewrite X. reflexivity.
  - cbn [x_ctl]. unfold server_at, kill. rewrite G, V. cbn [ln_mgr set_ln_mgr g_servers set_servers]. rewrite nth_upd, Nat.eqb_refl. replace (jc <? _)%nat with true; [reflexivity|]. symmetry. apply Nat.ltb_lt, nth_error_Some. congruence.
Qed.

(** ** For examples *)
Definition plain (s : lnode) : bool := forallb (fun ko => match o_handler (snd ko) with HSuper | HReadOnly => true | _ => false end &&
  forallb (fun cp => (op_code (snd cp) =? fst cp) && forallb (fun b => (0 <=? b) && (b <=? 255)) (op_data (snd cp)) && (zlen (op_data (snd cp)) <=? 255)) (o_props (snd ko))) (ln_objs s).
Lemma dget_in {V} (k : Z) (l : list (Z * V)) v : zget k l = Some v -> In (k, v) l.
Proof.
  induction l as [|[k' v'] l IH]; cbn [dget]; [discriminate|]. destruct (Z.eqb_spec k k') as [->|]; [intros H; left; congruence|right; auto].
Qed.
Lemma plain_ok s : plain s = true -> mirrors s (contents s) /\ store_ok (contents s).
Proof.
  intros P. unfold plain in P. rewrite forallb_forall in P.
  assert (A : forall k o, zget k (ln_objs s) = Some o -> builtin (o_handler o) /\ forall c p, get_property c o = Some p -> op_code p = c /\ bytes_ok (op_data p) /\ zlen (op_data p) <= 255).
  { intros k o Z0. specialize (P (k, o) (dget_in k _ o Z0)). cbn [fst snd] in P. apply andb_prop in P as (P1 & P2). split; [destruct (o_handler o); first [discriminate|now left|now right]|].
    intros c p G. rewrite forallb_forall in P2. specialize (P2 (c, p) (dget_in c _ p G)). cbn [fst snd] in P2. apply andb_prop in P2 as (P2 & P5). apply andb_prop in P2 as (P3 & P4).
    split; [lia|]. split; [|lia]. rewrite forallb_forall in P4. apply Forall_forall. intros b Ib. specialize (P4 b Ib). unfold byte_ok. lia. }
  split.
  - intros k. unfold contents. destruct (zget k (ln_objs s)) as [o|] eqn:Z0; cbn [option_map]; [|exact Logic.I]. destruct (A k o Z0) as (B & D). split; [exact B|]. split; [intros c p G; apply (D c p G)|reflexivity].
  - intros k t c l Hs Ht. unfold contents in Hs. destruct (zget k (ln_objs s)) as [o|] eqn:Z0; [|discriminate]. cbn [option_map] in Hs. injection Hs as <-.
    destruct (get_property c o) as [p|] eqn:G; [|discriminate]. cbn [option_map] in Ht. injection Ht as <-. cbn [cell_of cl_data]. apply (proj2 (A k o Z0) c p G).
Qed.
