(** Lemmas for C113. *)
From Verif Require Import PyBase BytesM EsvM MsgM PropM ObjM DbData DbM NodeM LocalM CtrlM
  SpecWire SpecObj SpecReq SpecDb SpecNode SpecProf SpecLocal SpecSrv SpecCtrl SpecEnd SpecSess SpecMany SpecLife SpecSelf SpecDisc SpecGroup
  DictP BytesP WireP CodecP ObjP MapP ReqP DbP NodeP ProfP LocalP AnswerP SrvP CtrlP EndP SessP ManyP NetP LifeP SelfP DiscP.
From Verif Require Import SpecReq.
Require Import ZifyBool.

(** ** Hearing a call again changes nothing *)
Lemma pokes_perm t ps c : known (pokes t ps) c = known t c /\ readable (pokes t ps) c = readable t c /\ writeable (pokes t ps) c = writeable t c.
Proof. unfold known, readable, writeable. rewrite pokes_at. destruct (t c) as [l|]; [|auto]. destruct (last_data c ps); destruct (cl_write l) eqn:W; cbn; rewrite ?W; auto. Qed.
Lemma pokes_again t ps c : pokes (pokes t ps) ps c = pokes t ps c.
Proof. rewrite !pokes_at. destruct (t c) as [l|]; [|reflexivity]. destruct (last_data c ps), (cl_write l) eqn:W; cbn; rewrite ?W; reflexivity. Qed.
Lemma show_same t t' c : t c = t' c -> show t c = show t' c.
Proof. unfold show. now intros ->. Qed.
Lemma reply_again t k : reply (after t k) k = reply t k.
Proof.
  assert (W : forall ps qs, forallb (fun p => writeable (pokes t qs) (p_code p)) ps = forallb (fun p => writeable t (p_code p)) ps).
  { intros ps qs. induction ps as [|p ps IH]; cbn; [reflexivity|]. rewrite IH. now destruct (pokes_perm t qs (p_code p)) as (_ & _ & ->). }
  assert (R : forall cs qs, forallb (readable (pokes t qs)) cs = forallb (readable t) cs).
  { intros cs qs. induction cs as [|c cs IH]; cbn; [reflexivity|]. rewrite IH. now destruct (pokes_perm t qs c) as (_ & -> & _). }
  assert (E : forall ps qs, map (echo (pokes t qs)) ps = map (echo t) ps).
  { intros ps qs. apply map_ext. intros p. unfold echo. now destruct (pokes_perm t qs (p_code p)) as (-> & _ & ->). }
  destruct k as [cs|ps|ps|ps cs]; cbn [reply after]; [reflexivity|now rewrite W, E..|]. rewrite W, R, E. do 2 f_equal. apply map_ext. intros c. apply show_same, pokes_again.
Qed.
Lemma known_again t k c : known (after t k) c = known t c.
Proof. destruct k; cbn [after]; [reflexivity|apply pokes_perm..]. Qed.
Lemma after_again t k c : after (after t k) k c = after t k c.
Proof. destruct k; cbn [after]; [reflexivity|apply pokes_again..]. Qed.
Lemma store_code S code k t : S code = Some t -> store_after S code k code = Some (after t k).
Proof. intros E. unfold store_after. rewrite E, Z.eqb_refl. reflexivity. Qed.
Lemma reply_heard n S code k : store_reply (heard_store n S code k) code k = store_reply S code k.
Proof.
  destruct n; [reflexivity|]. cbn [heard_store]. unfold store_reply. destruct (S code) as [t|] eqn:E; [rewrite (store_code S code k t E); apply reply_again|].
  unfold store_after. rewrite E, E. reflexivity.
Qed.
Lemma call_heard n S code k : call_ok S code k -> call_ok (heard_store n S code k) code k.
Proof.
  destruct n; [auto|]. cbn [heard_store]. intros (A & B & C & D & E & F). do 5 (split; [assumption|]). destruct (S code) as [t|] eqn:Sc.
  - rewrite (store_code S code k t Sc), reply_again. destruct F as (F1 & F2). split; [exact F1|]. assert (K : forall k' l, forallb (known (after t k')) l = forallb (known t) l).
    { intros k' l. induction l as [|c l IH]; cbn [forallb]; [reflexivity|]. now rewrite IH, known_again. }
    destruct k; try exact F2. rewrite K. exact F2.
  - unfold store_after. now rewrite Sc, Sc.
Qed.
Definition same_store (S S' : store) : Prop := forall i, match S i, S' i with Some t, Some t' => forall c, t c = t' c | None, None => True | _, _ => False end.
Lemma mirrors_same s S S' : same_store S S' -> mirrors s S -> mirrors s S'.
Proof.
  intros E M i. specialize (E i). specialize (M i). destruct (zget i (ln_objs s)) as [o|]; destruct (S i) as [t|], (S' i) as [t'|]; try contradiction; [|exact Logic.I].
  destruct M as (A & B & C). split; [exact A|]. split; [exact B|]. intros c. rewrite C. apply E.
Qed.
Lemma heard_again n S code k : same_store (store_after (heard_store n S code k) code k) (store_after S code k).
Proof.
  intros i. destruct n; cbn [heard_store].
  - destruct (store_after S code k i); auto.
  - unfold store_after. destruct (S code) as [t|] eqn:E; [|rewrite E; destruct (S i); auto]. rewrite Z.eqb_refl. destruct (i =? code); [intros c; apply after_again|destruct (S i); auto].
Qed.
Lemma store_heard n S code k : store_ok S -> store_ok (store_after S code k) -> store_ok (heard_store n S code k).
Proof. destruct n; auto. Qed.

(** ** One copy at a device *)
Lemma same_open s s' : g_servers (ln_mgr s') = g_servers (ln_mgr s) -> open_ifs s' = open_ifs s.
Proof. unfold open_ifs. now intros ->. Qed.
Lemma device_takes (PS : PySet) wd tr sd j v ac sc S code k : quiet wd -> reliable wd -> listens sd -> server_at sd j = Some v -> ln_ctl sd = None ->
  mirrors sd S -> store_ok S -> call_ok S code k ->
  exists sd' evs, deliver wd tr sd j (wire (as_received sc ac (request code k)), ac) = (sd', tr ++ evs) /\
  g_servers (ln_mgr sd') = g_servers (ln_mgr sd) /\ ln_ctl sd' = None /\ mirrors sd' (store_after S code k) /\ store_ok (store_after S code k) /\
  exists xs, sent evs = xs /\ Forall (fun x => delivered x = true) xs /\ map (fun x => (send_bytes x, snd (fst x))) xs = map (fun b => (b, ac)) (answer_bytes (next_tid sc) S code k).
Proof.
  intros Q R L V C M So Ca. assert (On : online sd j). { split; [apply L|]. exists v. split; [exact V|]. exact (proj2 L j v V). }
  destruct (dev_calls PS wd tr sd j ac sc S code k Q R On C M So Ca) as (sd' & td & E & O' & C' & M' & So' & A).
  unfold arrive in E. cbn [map run] in E. set (b := wire (as_received sc ac (request code k))) in *.
  destruct (deliver wd tr sd j (b, ac)) as [s1 t1] eqn:D. assert (s1 = sd' /\ t1 = td) as (-> & ->) by (split; congruence). clear E.
  destruct Ca as (Co & En & D1 & D2 & Le & _). pose proof (request_frame sc ac code k Co En D1 D2) as Fq.
  set (f := set_from None (as_received sc ac (request code k))) in *. change b with (wire f) in *.
  assert (Hm : received_from ac (set_from (Some ac) f)) by (exists f; split; [exact Fq|reflexivity]).
  destruct (node_received wd tr sd (set_from (Some ac) f)) as [[s1 tr1] r] eqn:N. destruct (proj2 L j v V) as (Al & Ob).
  assert (Lf : (length (wire f) <= 1024)%nat) by (rewrite wire_len in *; destruct k; exact Le).
  rewrite (hear_frame PS wd tr sd j v (wire f) ac f s1 tr1 r V Al Ob) in D; [|apply wire_bytes_ok; apply Fq|exact Lf|split; [exact Fq|exists []; now rewrite app_nil_r]|exact N].
  pose proof (node_keeps_servers PS wd tr sd ac _ s1 tr1 r Hm N) as G. destruct (node_sends PS wd tr sd ac _ s1 tr1 r Hm N) as (evs & Et & _).
  assert (td = tr ++ evs) as -> by (rewrite <- Et; exact (eq_sym (f_equal snd D))). exists sd', evs. split; [reflexivity|]. rewrite since_app in A. split; [|do 3 (split; [assumption|])].
  - destruct r as [[]|e]; [assert (sd' = s1) as -> by exact (eq_sym (f_equal fst D)); exact G|]. exfalso. assert (sd' = kill j s1) as -> by exact (eq_sym (f_equal fst D)).
    destruct O' as (_ & v' & V' & Al' & _). unfold server_at, kill in V'. destruct (nth_error (g_servers (ln_mgr s1)) j) as [x|] eqn:X; [|congruence].
    cbn [ln_mgr set_ln_mgr g_servers set_servers] in V'. rewrite nth_upd, Nat.eqb_refl in V'. destruct (j <? _)%nat; [|discriminate]. assert (v' = mksrv (s_uni x) (s_if x) (s_open x) false (s_obs x)) as -> by congruence. discriminate.
  - exists (sent evs). split; [reflexivity|]. unfold answer_bytes. destruct (store_reply S code k) as [[[[e ps] ss] gs]|].
    + destruct A as (_ & i & n & -> & Np). split; [|reflexivity]. constructor; [|constructor]. unfold delivered. cbn. lia.
    + rewrite A. split; [constructor|reflexivity].
Qed.
Lemma store_kept S code k : store_ok S -> call_ok S code k -> store_ok (store_after S code k).
Proof.
  intros So (Co & En & D1 & D2 & _). unfold store_after. destruct (S code) as [t|] eqn:E; [|exact So].
  intros i t0 c l. destruct (i =? code); [|apply So]. intros X. assert (t0 = after t k) as -> by congruence. apply (after_ok t k code); [intros c' l'; exact (So code t c' l' E)|assumption..].
Qed.

(** ** Any deliveries *)
Section Group.
Context {PS : PySet}.
Variables (sc : lnode) (ac : addr) (mail : list (list Z)) (devs : list site) (Ss : list store) (code : Z) (k : call).
Hypothesis (Hmail : Forall (fun b => b = wire (as_received sc ac (request code k))) mail)
  (Hd : Forall2 (fun d S => serves d S /\ call_ok S code k) devs Ss).
Definition copies (S : store) (n : nat) : list (list Z) := concat (repeat (answer_bytes (next_tid sc) S code k) n).
Definition ginv (a : list move) (i : nat) (d0 : site) (S : store) (d : site) : Prop :=
  let n := searches (length mail) (servers_of (t_node d0)) i a in
  t_os d = t_os d0 /\ t_addr d = t_addr d0 /\ t_from d = t_from d0 /\ (t_from d <= length (t_tr d))%nat /\
  g_servers (ln_mgr (t_node d)) = g_servers (ln_mgr (t_node d0)) /\ ln_ctl (t_node d) = None /\
  mirrors (t_node d) (heard_store n S code k) /\
  exists xs, sent (skipn (t_from d) (t_tr d)) = xs /\ Forall (fun x => delivered x = true) xs /\
  map (fun x => (send_bytes x, snd (fst x))) xs = map (fun b => (b, ac)) (copies S n).
Definition gall (a : list move) (x : area) : Prop :=
  a_mail x = mail /\ t_addr (a_ctl x) = ac /\ length (a_devs x) = length devs /\
  forall i d0 S, nth_error devs i = Some d0 -> nth_error Ss i = Some S -> exists d, nth_error (a_devs x) i = Some d /\ ginv a i d0 S d.

Lemma ginv_other a e i d0 S d : searches (length mail) (servers_of (t_node d0)) i [e] = 0%nat -> ginv a i d0 S d -> ginv (a ++ [e]) i d0 S d.
Proof. intros E H. unfold ginv in *. cbv zeta in *. rewrite searches_app, E, Nat.add_0_r. exact H. Qed.
Lemma copies_more S n : copies S (n + 1) = copies S n ++ answer_bytes (next_tid sc) S code k.
Proof. unfold copies. rewrite repeat_app, concat_app. cbn. now rewrite app_nil_r. Qed.
Lemma ginv_takes a i j m d0 S d b : serves d0 S -> call_ok S code k -> ginv a i d0 S d -> nth_error mail m = Some b -> ginv (a ++ [GoSearch i j m]) i d0 S (hears d j b ac).
Proof.
  intros (Qd & Rd & Ld & Cd & Md & So & Fd) Ca G Mb. assert (Lm : (m < length mail)%nat) by (apply nth_error_Some; rewrite Mb; discriminate).
  assert (b = wire (as_received sc ac (request code k))) as -> by (rewrite Forall_forall in Hmail; apply Hmail; exact (nth_error_In _ _ Mb)).
  pose proof G as (Eo & Ea & Ef & Lf & Es & C & M & xs & X1 & X2 & X3). cbv zeta in *.
  destruct (server_at (t_node d) j) as [v|] eqn:V.
  2:{ unfold hears. assert (X : deliver (t_os d) (t_tr d) (t_node d) j (wire (as_received sc ac (request code k)), ac) = (t_node d, t_tr d)) by (apply kill_dead; rewrite V; exact I).
      rewrite X. replace (mksite _ _ _ _ _) with d by (destruct d; reflexivity). apply ginv_other; [|exact G]. unfold searches. cbn [filter]. rewrite Nat.eqb_refl. cbn [andb].
      assert (Lj : (j <? servers_of (t_node d0))%nat = false). { apply Nat.ltb_ge. unfold servers_of. rewrite <- Es. apply nth_error_None. exact V. }
      rewrite Lj. reflexivity. }
  assert (Lj : (j <? servers_of (t_node d0))%nat = true). { apply Nat.ltb_lt. unfold servers_of. rewrite <- Es. apply nth_error_Some. unfold server_at in V. rewrite V. discriminate. }
  assert (S1 : searches (length mail) (servers_of (t_node d0)) i [GoSearch i j m] = 1%nat).
  { unfold searches. cbn [filter]. rewrite Nat.eqb_refl, Lj. cbn [andb]. replace (m <? length mail)%nat with true by (symmetry; apply Nat.ltb_lt; exact Lm). reflexivity. }
  set (n := searches (length mail) (servers_of (t_node d0)) i a) in *.
  assert (Li : listens (t_node d)) by exact (listens_same _ _ Es Ld).
  destruct (device_takes PS (t_os d) (t_tr d) (t_node d) j v ac sc (heard_store n S code k) code k) as (sd' & evs & D & G' & C' & M' & So' & ys & Y1 & Y2 & Y3); [now rewrite Eo|now rewrite Eo|exact Li|exact V|exact C|exact M|apply store_heard; [exact So|exact (store_kept S code k So Ca)]|exact (call_heard n S code k Ca)|].
  unfold hears. rewrite D. unfold ginv. cbv zeta. cbn [t_os t_addr t_from t_tr t_node]. rewrite searches_app, S1. fold n. split; [exact Eo|]. split; [exact Ea|]. split; [exact Ef|]. split; [rewrite app_length; lia|].
  split; [now rewrite G'|]. split; [exact C'|]. split.
  - replace (n + 1)%nat with (Datatypes.S n) by lia. cbn [heard_store]. exact (mirrors_same _ _ _ (heard_again n S code k) M').
  - exists (xs ++ ys). rewrite skipn_app. replace (t_from d - length (t_tr d))%nat with 0%nat by lia. cbn [skipn]. rewrite sent_app, X1, Y1. split; [reflexivity|].
    split; [apply Forall_app; auto|]. rewrite map_app, X3, Y3, copies_more, map_app. f_equal. unfold answer_bytes. now rewrite reply_heard.
Qed.
Lemma served i d : nth_error devs i = Some d -> exists S, nth_error Ss i = Some S /\ serves d S /\ call_ok S code k.
Proof.
  clear Hmail. revert i. generalize Hd. clear Hd. intros Hd0. induction Hd0 as [|x S l m H _ IH]; intros [|i] E; cbn in E; try discriminate; [|exact (IH i E)]. assert (x = d) as <- by congruence. exists S. split; [reflexivity|exact H].
Qed.
Lemma gall_step a e x : gall a x -> gall (a ++ [e]) (area_step x e).
Proof.
  intros (M & C & L & D). destruct e as [i j m|i j m]; cbn [area_step].
  - assert (K : forall i0 d0 S d, i0 <> i -> ginv a i0 d0 S d -> ginv (a ++ [GoSearch i j m]) i0 d0 S d).
    { intros i0 d0 S d N. apply ginv_other. unfold searches. cbn [filter]. replace (i =? i0)%nat with false by (symmetry; apply Nat.eqb_neq; congruence). reflexivity. }
    destruct (nth_error (a_devs x) i) as [d|] eqn:Kd.
    2:{ split; [exact M|]. split; [exact C|]. split; [exact L|]. intros i0 d0 S E1 E2. destruct (D i0 d0 S E1 E2) as (d & Ed & Dd). exists d. split; [exact Ed|]. apply K; [congruence|exact Dd]. }
    destruct (nth_error (a_mail x) m) as [b|] eqn:Mb; rewrite M in Mb.
    2:{ split; [exact M|]. split; [exact C|]. split; [exact L|]. intros i0 d0 S E1 E2. destruct (D i0 d0 S E1 E2) as (d1 & Ed & Dd). exists d1. split; [exact Ed|].
        apply ginv_other; [|exact Dd]. unfold searches. cbn [filter]. replace (m <? length mail)%nat with false by (symmetry; apply Nat.ltb_ge, nth_error_None; exact Mb). rewrite andb_false_r. reflexivity. }
    split; [exact M|]. split; [exact C|]. cbn [a_devs a_ctl]. split; [rewrite upd_length; exact L|]. intros i0 d0 S E1 E2. rewrite nth_upd. destruct (D i0 d0 S E1 E2) as (d1 & Ed & Dd).
    destruct (Nat.eqb_spec i0 i) as [->|Ni].
    + assert (d1 = d) by congruence. subst d1. exists (hears d j b (t_addr (a_ctl x))). split.
      * replace (i <? length (a_devs x))%nat with true; [reflexivity|]. symmetry. apply Nat.ltb_lt, nth_error_Some. rewrite Kd. discriminate.
      * rewrite C. destruct (served i d0 E1) as (S1 & El & Sv & Ca). assert (S1 = S) by congruence. subst S1. apply ginv_takes; assumption.
    + exists d1. split; [exact Ed|]. apply K; assumption.
  - assert (K : forall i0 d0 S, nth_error devs i0 = Some d0 -> nth_error Ss i0 = Some S -> exists d, nth_error (a_devs x) i0 = Some d /\ ginv (a ++ [GoAnswer i j m]) i0 d0 S d).
    { intros i0 d0 S E1 E2. destruct (D i0 d0 S E1 E2) as (d & Ed & Dd). exists d. split; [exact Ed|]. apply ginv_other; [reflexivity|exact Dd]. }
    destruct (nth_error (a_devs x) i) as [d|]; [|split; [exact M|split; [exact C|split; [exact L|exact K]]]].
    destruct (nth_error _ m) as [b|]; [|split; [exact M|split; [exact C|split; [exact L|exact K]]]].
    split; [exact M|]. split; [|split; [exact L|exact K]]. cbn [a_ctl]. unfold hears. destruct (deliver _ _ _ _ _). exact C.
Qed.
Lemma gall_run sched : forall x, gall [] x -> gall sched (area_run sched x).
Proof.
  induction sched as [|e a IH] using rev_ind; intros x H; [exact H|]. unfold area_run. rewrite fold_left_app. cbn [fold_left]. apply gall_step. apply IH. exact H.
Qed.
End Group.
(** ** The request goes to the group *)
Lemma announce_mail w tr s c a m s' tr' m' r : ln_ctl s = Some c -> 0 <= g_tid (ln_mgr s) <= 65535 -> m_TID m = 0 -> encodable m -> local_announce w tr s m = (s', tr', m', r) ->
  Forall (fun b => b = wire (as_received s a m)) (reach MULTICAST (since tr tr')) /\ g_servers (ln_mgr s') = g_servers (ln_mgr s) /\ ln_ctl s' = Some c /\
  (reliable w -> length (reach MULTICAST (since tr tr')) = length (open_ifs s)).
Proof.
  intros C T T0 En H. destruct (local_announce_ok w tr s m) as (g' & t & St & G & X & _). destruct (X En) as (snds & m1 & r1 & E & (Cs & Fo) & _). clear X.
  rewrite H in E. injection E as -> -> _ _. unfold stamped in St. rewrite T0 in St. cbn in St.
  destruct (next_TID_mod (ln_mgr s) T) as (N1 & _). rewrite <- St in N1. cbn [fst snd] in N1. change (t = next_tid s) in N1.
  assert (W : wire (set_TID t (set_SEOJ (source s m) m)) = wire (as_received s a m)).
  { unfold source. rewrite C. rewrite N1. destruct m. reflexivity. }
  rewrite W in Cs.
  rewrite since_app. unfold reach. rewrite sent_evs. split; [|split; [exact G|split; [exact C|]]].
  - apply Forall_forall. intros b I. apply in_map_iff in I as (x & <- & I). apply filter_In in I as (I & _). destruct (AnswerP.casts_all _ _ _ _ Cs x I) as (-> & _). reflexivity.
  - intros R. clear - Cs Fo R. pose proof (wire_nonempty (as_received s a m)) as NE. remember (wire (as_received s a m)) as b eqn:Eb. clear Eb. revert Fo.
    induction Cs as [|i ifs e|i ifs n l Cs IH]; intros Fo; [reflexivity|..].
    + exfalso. apply Forall_inv in Fo. destruct Fo as (t0 & X). destruct (R t0 i b MULTICAST NE) as (n & Y & _). congruence.
    + inversion Fo as [|y q F1 F2]; subst. destruct F1 as (t0 & X). destruct (R t0 i b MULTICAST NE) as (n' & Y & Z). rewrite Y in X. injection X as ->.
      cbn [filter]. unfold delivered at 1. cbn [snd fst]. rewrite addr_eqb_refl. replace (0 <? n') with true by lia. cbn [andb map length]. f_equal. apply IH. exact F2.
Qed.

Lemma outbox_mail ac d xs l : sent (skipn (t_from d) (t_tr d)) = xs -> Forall (fun x => delivered x = true) xs -> map (fun x => (send_bytes x, snd (fst x))) xs = map (fun b => (b, ac)) l -> mailed ac d = l.
Proof.
  intros E F M. unfold mailed, reach. rewrite E. clear E d. revert l M. induction F as [|x xs D F IH]; intros [|b l] M; try discriminate; [reflexivity|]. cbn [map filter] in *.
  injection M as M1 M2 M3. rewrite D, M2, addr_eqb_refl. cbn [andb map]. rewrite M1, (IH l M3). reflexivity.
Qed.

Lemma L_C113_sent : forall w tr s c code k s' tr' m' r,
  ln_ctl s = Some c -> 0 <= g_tid (ln_mgr s) <= 65535 -> encodable (request code k) ->
  local_announce w tr s (request code k) = (s', tr', m', r) ->
  let m := request code k in
  (forall b, In b (reach ("224.0.23.0"%string, 3610) (since tr tr')) ->
     b = wire (mkmsg (g_tid (ln_mgr s) mod 65535 + 1) 0x0EF001 code (m_ESV m) (m_props m) (m_sets m) (m_gets m) None None)) /\
  (reliable w -> length (reach ("224.0.23.0"%string, 3610) (since tr tr')) = length (open_ifs s)).
Proof.
  intros w tr s c code k s' tr' m' r C T En H m. destruct (announce_mail w tr s c (EmptyString, 0) m s' tr' m' r C T) as (F & _ & _ & L); [destruct k; reflexivity|exact En|exact H|].
  split; [|exact L]. intros b I. rewrite Forall_forall in F. rewrite (F b I). unfold as_received. replace (m_DEOJ m) with code by (subst m; destruct k; reflexivity). reflexivity.
Qed.

Lemma L_C113_group_partial : forall (PS : PySet) wc ac sc c trc code k sc1 trc1 m1 rc devs Ss sched,
  ln_ctl sc = Some c -> 0 <= g_tid (ln_mgr sc) <= 65535 -> encodable (request code k) ->
  (* a controller sends a request to all nodes *)
  local_announce wc trc sc (request code k) = (sc1, trc1, m1, rc) ->
  (* on a network of devices with the contents [Ss] *)
  Forall2 (fun d S => serves d S /\ call_ok S code k) devs Ss ->
  let mail := reach ("224.0.23.0"%string, 3610) (since trc trc1) in
  (* then, whatever the network delivers *)
  let x := area_run sched (mkarea (mksite wc ac sc1 trc1 (length trc1)) mail devs) in
  forall i d0 S, nth_error devs i = Some d0 -> nth_error Ss i = Some S ->
  let n := searches (length mail) (servers_of (t_node d0)) i sched in
  exists d, nth_error (a_devs x) i = Some d /\ listens (t_node d) /\
  (* each device holds what the request leaves if it has heard it, however often *)
  mirrors (t_node d) (heard_store n S code k) /\
  (* and has sent nothing but its answer to the controller, once for each time it has heard it *)
  outbox d = map (fun b => (b, ac)) (concat (repeat (answer_bytes (next_tid sc) S code k) n)) /\
  mailed ac d = concat (repeat (answer_bytes (next_tid sc) S code k) n).
Proof.
  intros PS wc ac sc c trc code k sc1 trc1 m1 rc devs Ss sched C T En H Hd mail x i d0 S E1 E2 n.
  destruct (announce_mail wc trc sc c ac (request code k) sc1 trc1 m1 rc C T) as (F & _); [destruct k; reflexivity|exact En|exact H|].
  assert (G : gall sc ac mail devs Ss code k sched x).
  { apply gall_run; [exact F|exact Hd|]. split; [reflexivity|]. split; [reflexivity|]. split; [reflexivity|]. intros j d S0 D1 D2. exists d. split; [exact D1|].
    destruct (served devs Ss code k Hd j d D1) as (S1 & X & (_ & _ & _ & Cd & Md & _ & Fd) & _). assert (S1 = S0) by congruence. subst S1.
    unfold ginv. cbv zeta. cbn [searches filter length heard_store]. do 3 (split; [reflexivity|]). split; [lia|]. split; [reflexivity|]. split; [exact Cd|]. split; [exact Md|].
    exists []. rewrite Fd, skipn_all. split; [reflexivity|]. split; [constructor|reflexivity]. }
  destruct G as (_ & _ & _ & G). destruct (G i d0 S E1 E2) as (d & Ed & Eo & Ea & Ef & Lf & Es & Cd & Md & xs & X1 & X2 & X3). exists d. split; [exact Ed|].
  destruct (served devs Ss code k Hd i d0 E1) as (S1 & _ & (_ & _ & Ld & _) & _). split; [exact (listens_same _ _ Es Ld)|]. split; [exact Md|]. split.
  - unfold outbox. rewrite X1. exact X3.
  - exact (outbox_mail ac d xs _ X1 X2 X3).
Qed.

(** Finding: a request to write and read with a property that an object does not have ends the
    servers of the devices that hear it. *)
Definition gx_table : table := fun c => if c =? 0x80 then Some (mkcell [0x30] true true) else if c =? 0xD5 then Some (mkcell [1] true true) else None.
Definition gx_store : store := fun code => if code =? 0x029101 then Some gx_table else None.
Lemma gx_serves a : serves (mksite good_os a shelf_node [] 0) gx_store.
Proof.
  split; [exact good_quiet|]. split; [exact good_reliable|]. split; [|split; [vm_compute; reflexivity|split; [|split; [|reflexivity]]]].
  - split; [vm_compute; discriminate|]. intros j v. do 4 (destruct j as [|j]; [vm_compute; intros E; assert (X := f_equal (fun o => match o with Some v => v | None => mksrv true ""%string true true [] end) E); cbn in X; subst v; split; reflexivity|]).
    destruct j; vm_compute; discriminate.
  - intros code. assert (L : ln_objs (t_node (mksite good_os a shelf_node [] 0)) = [(0x029101, shelf)]) by (vm_compute; reflexivity). rewrite L. unfold gx_store. cbn [dget]. destruct (code =? 0x029101); [|exact Logic.I].
    split; [now left|]. split; [exact (proj1 (proj2 shelf_fitting))|].
    intros c. unfold get_property, gx_table. cbn. destruct (c =? 0x80); [reflexivity|]. destruct (c =? 0xD5); reflexivity.
  - intros code t c l. unfold gx_store. destruct (code =? 0x029101); [|discriminate]. intros E. assert (t = gx_table) as -> by congruence. unfold gx_table.
    destruct (c =? 0x80); [intros E2; assert (l = mkcell [0x30] true true) as -> by congruence|destruct (c =? 0xD5); [|discriminate]; intros E2; assert (l = mkcell [1] true true) as -> by congruence];
    (split; [repeat constructor; unfold byte_ok; cbn; lia|cbn; lia]).
Qed.
Lemma L_C113_goes_on_refuted : exists wc ac sc c code k devs Ss sched,
  ln_ctl sc = Some c /\ 0 <= g_tid (ln_mgr sc) <= 65535 /\ encodable (request code k) /\ Forall2 serves devs Ss /\
  forall PS : PySet, exists sc1 trc1 m1 d0 d v,
  local_announce wc [] sc (request code k) = (sc1, trc1, m1, Ok true) /\
  let mail := reach ("224.0.23.0"%string, 3610) (since [] trc1) in
  let x := area_run sched (mkarea (mksite wc ac sc1 trc1 (length trc1)) mail devs) in
  nth_error devs 0 = Some d0 /\ nth_error (a_devs x) 0 = Some d /\
  searches (length mail) (servers_of (t_node d0)) 0 sched = 1%nat /\
  outbox d = [] /\ server_at (t_node d) 2 = Some v /\ s_alive v = false.
Proof.
  exists good_os, ctl_addr, finder, (mkctl [("10.0.0.9"%string, mknode (Some dev_addr) [])] None None []), 0x029101, (KWriteRead [] [0x99]),
    [mksite good_os dev_addr shelf_node [] 0], [gx_store], [GoSearch 0 2 0].
  split; [vm_compute; reflexivity|]. split; [vm_compute; split; discriminate|]. split; [split; [unfold byte_ok; cbn; lia|]; change (fits_list [] /\ fits_list [mkprop 0x99 []]); split; (split; [cbn; lia|repeat constructor; unfold byte_ok; cbn; lia])|].
  split; [exact (Forall2_cons _ _ (gx_serves dev_addr) (Forall2_nil _))|].
  intros PS. do 6 eexists. split; [vm_compute; reflexivity|]. cbv zeta. split; [reflexivity|]. split; [vm_compute; reflexivity|]. split; [vm_compute; reflexivity|]. split; [vm_compute; reflexivity|]. split; [vm_compute; reflexivity|vm_compute; reflexivity].
Qed.
