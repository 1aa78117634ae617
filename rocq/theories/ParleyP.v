(** Lemmas for C127. *)
From Verif Require Import PyBase BytesM EsvM MsgM PropM ObjM DbData DbM NodeM LocalM CtrlM
  SpecWire SpecObj SpecReq SpecDb SpecNode SpecProf SpecLocal SpecSrv SpecCtrl SpecEnd SpecSess SpecMany SpecLife SpecSelf SpecDisc SpecGroup SpecCrowd SpecSolo SpecParley
  DictP BytesP WireP CodecP ObjP MapP ReqP DbP NodeP ProfP LocalP AnswerP SrvP CtrlP EndP SessP BenchP ManyP DiscP CrowdP SoloP.
From Verif Require Import SpecReq.
Require Import ZifyBool.

(** ** The answer arrives at the controller, which forgets no node *)
Lemma cli_gets_more (PS : PySet) wc tr sc jc an rsp c nd : quiet wc -> online sc jc -> ln_ctl sc = Some c -> sget (fst an) (c_found c) = Some nd ->
  good_answer rsp ->
  exists c' nd' tc, arrive wc tr sc jc an [wire rsp] = (set_ln_ctl (Some c') sc, tc) /\ sget (fst an) (c_found c') = Some nd' /\
  c_req c' = c_req c /\ c_resp c' = c_resp (post_step (set_from (Some an) rsp) c) /\
  forall ip, sget ip (c_found c) <> None -> sget ip (c_found c') <> None.
Proof.
  intros Qc Oc C Nd (Fr & Lr & N73 & NRq & Dj & El). set (m2 := set_from (Some an) rsp).
  assert (Hr : received_from an m2) by (exists rsp; split; [exact Fr|reflexivity]).
  change (is_request (m_ESV m2) = false) in NRq.
  destruct (node_received wc tr sc m2) as [[sc2 tc2] rc] eqn:NC.
  destruct (step_of PS wc tr sc c an m2 sc2 tc2 rc Qc C Hr NC) as (c2 & C2 & _ & CR). specialize (CR NRq).
  pose proof (ctl_node_received PS wc tr sc c an m2 sc2 tc2 rc C Hr NC) as CN. rewrite NRq in CN. destruct CN as (c3 & CR3 & Es2).
  assert (c3 = c2) by congruence. subst c3. clear CR3.
  rewrite (ctl_response_eq wc tr c an m2 Qc Hr NRq) in CR.
  change (m_DEOJ m2) with (m_DEOJ rsp) in CR. rewrite Dj in CR. change (negb (0x0EF001 =? 0x0EF001)) with false in CR. rewrite andb_false_r in CR.
  assert (El2 : from_profile m2 && empty_list m2 = false).
  { destruct (from_profile m2) eqn:FP; [|reflexivity]. apply from_profile_iff in FP. change (m_ESV m2) with (m_ESV rsp) in FP. change (empty_list m2) with (empty_list rsp). rewrite El; [reflexivity|]. lia. }
  rewrite El2 in CR. cbv zeta in CR.
  assert (Fnd : exists n1, sget (fst an) (c_found (announce_found an m2 c)) = Some n1).
  { unfold announce_found. destruct (announces m2); [|exists nd; exact Nd]. cbn [c_found set_found]. rewrite (dget_dset String.eqb seqb_eq), String.eqb_refl. eauto. }
  destruct Fnd as (n1 & Fnd).
  assert (P : forall cc, c_req cc = c_req c -> c_resp cc = c_resp c -> c_req (post_step m2 cc) = c_req c /\ c_resp (post_step m2 cc) = c_resp (post_step m2 c)).
  { intros cc H1 H2. unfold post_step. rewrite H1, H2. destruct (c_req c) as [r|] eqn:Q; [|split; congruence]. destruct (c_resp c) eqn:Q2; [split; congruence|]. destruct (m_TID r =? m_TID m2); [|split; congruence]. split; reflexivity. }
  assert (AF : c_req (announce_found an m2 c) = c_req c /\ c_resp (announce_found an m2 c) = c_resp c) by (unfold announce_found; destruct (announces m2); split; reflexivity).
  assert (Mo : forall ip (n : node) d (k : string), sget ip d <> None -> sget ip (sset k n d) <> None).
  { intros ip n d k H. rewrite (dget_dset String.eqb seqb_eq). destruct (String.eqb ip k); [discriminate|exact H]. }
  assert (Ma : forall ip, sget ip (c_found c) <> None -> sget ip (c_found (announce_found an m2 c)) <> None).
  { intros ip H. unfold announce_found. destruct (announces m2); [|exact H]. cbn [c_found set_found]. apply Mo. exact H. }
  assert (Fin : rc = Ok tt /\ c_req c2 = c_req c /\ c_resp c2 = c_resp (post_step m2 c) /\ (exists n3, sget (fst an) (c_found c2) = Some n3) /\ forall ip, sget ip (c_found c) <> None -> sget ip (c_found c2) <> None).
  { destruct (from_profile m2 || (m_ESV m2 =? 0x7E)).
    - rewrite Fnd in CR. assert (c2 = post_step m2 (set_found (sset (fst an) (rec_node m2 n1) (c_found (announce_found an m2 c))) (announce_found an m2 c)) /\ rc = Ok tt) as (-> & ->) by (split; congruence).
      split; [reflexivity|]. split; [apply P; apply AF|]. split; [apply P; apply AF|]. rewrite post_found. cbn [c_found set_found]. split; [rewrite (dget_dset String.eqb seqb_eq), String.eqb_refl; eauto|]. intros ip H. apply Mo, Ma, H.
    - assert (c2 = post_step m2 (announce_found an m2 c) /\ rc = Ok tt) as (-> & ->) by (split; congruence).
      split; [reflexivity|]. split; [apply P; apply AF|]. split; [apply P; apply AF|]. rewrite post_found. split; [eauto|exact Ma]. }
  destruct Fin as (-> & Rq & Rs & (n3 & N3) & Mf). exists c2, n3, tc2. rewrite <- Es2. split; [|auto].
  exact (arrive_one PS wc tr sc jc an rsp sc2 tc2 Oc Fr Lr NC).
Qed.

(** ** Sites that stay the same *)
Definition kin (d d' : site) : Prop :=
  t_os d' = t_os d /\ t_addr d' = t_addr d /\ g_servers (ln_mgr (t_node d')) = g_servers (ln_mgr (t_node d)) /\
  (ln_ctl (t_node d') = None <-> ln_ctl (t_node d) = None) /\ forall ip, has_found (t_node d) ip -> has_found (t_node d') ip.
Lemma kin_refl d : kin d d. Proof. unfold kin. tauto. Qed.
Lemma kin_trans a b c : kin a b -> kin b c -> kin a c.
Proof. unfold kin. intros (A1 & A2 & A3 & A4 & A5) (B1 & B2 & B3 & B4 & B5). split; [congruence|]. split; [congruence|]. split; [congruence|]. split; [tauto|]. auto. Qed.
Definition kins (x x' : list site) : Prop := length x' = length x /\ forall k d, nth_error x k = Some d -> exists d', nth_error x' k = Some d' /\ kin d d'.
Lemma kins_refl x : kins x x. Proof. split; [reflexivity|]. intros k d H. exists d. split; [exact H|apply kin_refl]. Qed.
Lemma kins_trans x y z : kins x y -> kins y z -> kins x z.
Proof.
  intros (L1 & A) (L2 & B). split; [congruence|]. intros k d H. destruct (A k d H) as (d1 & H1 & K1). destruct (B k d1 H1) as (d2 & H2 & K2). exists d2. split; [exact H2|exact (kin_trans _ _ _ K1 K2)].
Qed.
Lemma upd_len {A} (l : list A) : forall i v, length (upd l i v) = length l.
Proof. induction l as [|a l IH]; intros [|i] v; cbn; auto. Qed.
Lemma nth_len {A} (l : list A) i v : nth_error l i = Some v -> (i < length l)%nat.
Proof. intros H. apply nth_error_Some. congruence. Qed.
Lemma nth_upd_is {A} (l : list A) i v w k : nth_error l i = Some w -> nth_error (upd l i v) k = if (k =? i)%nat then Some v else nth_error l k.
Proof.
  intros H. rewrite nth_upd. destruct (Nat.eqb_spec k i) as [->|N]; [|reflexivity]. apply nth_len in H. apply Nat.ltb_lt in H. now rewrite H.
Qed.
Lemma kins_upd x i d d' : nth_error x i = Some d -> kin d d' -> kins x (upd x i d').
Proof.
  intros H K. split; [apply upd_len|]. intros k e E. rewrite (nth_upd_is _ _ _ _ _ H). destruct (Nat.eqb_spec k i) as [->|N]; [|exists e; split; [exact E|apply kin_refl]].
  exists d'. split; [reflexivity|]. assert (e = d) as -> by congruence. exact K.
Qed.
Lemma listens_kin s s' : g_servers (ln_mgr s') = g_servers (ln_mgr s) -> listens s -> listens s'.
Proof. intros G (O & H). unfold listens, open_ifs, server_at in *. rewrite G. auto. Qed.
Lemma listens_online s j : listens s -> (j < servers_of s)%nat -> online s j.
Proof.
  intros (O & H) L. split; [exact O|]. unfold servers_of in L. destruct (server_at s j) as [v|] eqn:V; [|unfold server_at in V; apply nth_error_None in V; lia]. exists v. split; [reflexivity|exact (H j v V)].
Qed.
Lemma says_kins l : forall x x' ts Ss, kins x x' -> parley_says x' ts Ss l = parley_says x ts Ss l.
Proof.
  induction l as [|q l IH]; intros x x' ts Ss K; [reflexivity|]. cbn [parley_says]. destruct K as (Le & K).
  destruct (nth_error x (q_to q)) as [d|] eqn:E.
  - destruct (K _ _ E) as (d' & -> & _ & Ea & _ & Ec & _). destruct (nth_error Ss (q_to q)); [|reflexivity]. destruct (nth_error ts (q_by q)); [|reflexivity].
    rewrite (IH x x' _ _ (conj Le K)), Ea. f_equal. destruct (ln_ctl (t_node d)), (ln_ctl (t_node d')); try reflexivity; destruct Ec as (E1 & E2); [specialize (E1 eq_refl)|specialize (E2 eq_refl)]; discriminate.
  - assert (E' : nth_error x' (q_to q) = None) by (apply nth_error_None; apply nth_error_None in E; lia). rewrite E'. reflexivity.
Qed.

Lemma nth_error_same_list {A} (l : list A) : forall m, (forall j, nth_error l j = nth_error m j) -> l = m.
Proof.
  induction l as [|x l IH]; intros [|y m] H; [reflexivity|specialize (H 0%nat); discriminate H|specialize (H 0%nat); discriminate H|].
  pose proof (H 0%nat) as H0. cbn in H0. assert (x = y) by congruence. subst. f_equal. apply IH. intros j. exact (H (S j)).
Qed.

Lemma leads_addr e a : leads e a -> dest_addr e = Some a.
Proof. destruct e as [b|ip|n|]; cbn [leads dest_addr]; [congruence|intros ->; reflexivity| |contradiction]. intros (Hp & p & H). unfold node_ip, node_port. rewrite H. destruct a as [ip pt]. cbn in *. subst pt. reflexivity. Qed.

(** ** Copies of datagrams *)
Lemma copies_map {A B} (f : A -> B) ns : forall l, copies ns (map f l) = map f (copies ns l).
Proof.
  unfold copies. induction ns as [|n ns IH]; intros [|x l]; try reflexivity. cbn [map combine flat_map]. rewrite IH, map_app. f_equal. induction n as [|n IHn]; [reflexivity|]. cbn. now rewrite IHn.
Qed.
Lemma copies_in {A} ns : forall (l : list A) x, In x (copies ns l) -> In x l.
Proof.
  unfold copies. induction ns as [|n ns IH]; intros [|y l] x H; try contradiction. cbn [combine flat_map] in H. apply in_app_or in H as [H|H]; [left; symmetry; exact (repeat_spec _ _ _ H)|right; exact (IH l x H)].
Qed.
Lemma reach_app a e1 e2 : reach a (e1 ++ e2) = reach a e1 ++ reach a e2.
Proof. unfold reach. now rewrite sent_app, filter_app, map_app. Qed.
Lemma node_copies (PS : PySet) wd jd ac sc code k : forall n tr sd St, quiet wd -> reliable wd -> online sd jd -> mirrors sd St -> store_ok St ->
  (forall j, (j < n)%nat -> call_ok (store_times j St code k) code k) ->
  exists sd' td, arrive wd tr sd jd ac (repeat (wire (as_received sc ac (request code k))) n) = (sd', td) /\ (exists evs, td = tr ++ evs) /\
  ln_mgr sd' = ln_mgr sd /\ ln_ctl sd' = ln_ctl sd /\ open_ifs sd' = open_ifs sd /\ mirrors sd' (store_times n St code k) /\ store_ok (store_times n St code k) /\
  Forall (fun a => good_answer (answer_of (next_tid sc) (comes_from sd code) a)) (store_replies n St code k) /\
  reach ac (since tr td) = map (fun a => wire (answer_of (next_tid sc) (comes_from sd code) a)) (store_replies n St code k).
Proof.
  induction n as [|n IH]; intros tr sd St Q R O M So Ok_.
  - exists sd, tr. split; [reflexivity|]. split; [exists []; now rewrite app_nil_r|]. do 3 (split; [reflexivity|]). split; [exact M|]. split; [exact So|]. split; [constructor|]. unfold since. rewrite skipn_all. reflexivity.
  - destruct (node_calls PS wd tr sd jd ac sc St code k Q R O M So (Ok_ 0%nat ltac:(lia))) as (s1 & t1 & A1 & (e1 & ->) & G1 & C1 & I1 & M1 & S1 & An).
    assert (O1 : online s1 jd). { destruct O as (Oi & v & V & W). split; [rewrite I1; exact Oi|]. exists v. split; [unfold server_at; rewrite G1; exact V|exact W]. }
    destruct (IH (tr ++ e1) s1 (store_after St code k) Q R O1 M1 S1 (fun j Hj => Ok_ (S j) ltac:(lia))) as (s2 & t2 & A2 & (e2 & ->) & G2 & C2 & I2 & M2 & S2 & F2 & R2).
    assert (Cf : comes_from s1 code = comes_from sd code) by (unfold comes_from; now rewrite C1). rewrite Cf in F2, R2.
    exists s2, ((tr ++ e1) ++ e2). change (repeat ?b (S n)) with ([b] ++ repeat b n). rewrite arrive_app, A1. split; [exact A2|]. split; [exists (e1 ++ e2); now rewrite app_assoc|].
    split; [congruence|]. split; [congruence|]. split; [congruence|]. split; [exact M2|]. split; [exact S2|]. cbn [store_replies]. rewrite since_app in *. rewrite <- app_assoc, since_app, reach_app, R2, map_app.
    destruct (store_reply St code k) as [an|].
    + destruct An as (Ga & i2 & m & Sn & Np). split; [constructor; [exact Ga|exact F2]|]. f_equal. exact (reach_one ac _ i2 _ m Sn Np).
    + split; [exact F2|]. unfold reach. rewrite An. reflexivity.
Qed.
Lemma cli_copies (PS : PySet) wc jc an m : forall rs tr sc c nd, quiet wc -> online sc jc -> ln_ctl sc = Some c -> sget (fst an) (c_found c) = Some nd ->
  Forall (fun x => good_answer x /\ m_TID x = m_TID m) rs -> c_req c = Some m ->
  exists c' tc, arrive wc tr sc jc an (map wire rs) = (set_ln_ctl (Some c') sc, tc) /\ c_req c' = Some m /\
  c_resp c' = match c_resp c with Some r => Some r | None => option_map (set_from (Some an)) (hd_error rs) end /\
  forall ip, sget ip (c_found c) <> None -> sget ip (c_found c') <> None.
Proof.
  induction rs as [|x rs IH]; intros tr sc c nd Q O C Nd F Rq.
  - exists c, tr. split; [unfold arrive; cbn [map run]; f_equal; destruct sc; cbn in C; subst; reflexivity|]. split; [exact Rq|]. split; [destruct (c_resp c); reflexivity|auto].
  - inversion F as [|? ? (Gx & Tx) F']; subst. destruct (cli_gets_more PS wc tr sc jc an x c nd Q O C Nd Gx) as (c1 & nd1 & t1 & A1 & N1 & Q1 & P1 & Mo1).
    destruct (IH t1 (set_ln_ctl (Some c1) sc) c1 nd1 Q O eq_refl N1 F' (eq_trans Q1 Rq)) as (c2 & t2 & A2 & Q2 & P2 & Mo2).
    exists c2, t2. change (map wire (x :: rs)) with ([wire x] ++ map wire rs). rewrite arrive_app, A1. split; [exact A2|]. split; [exact Q2|]. split; [|auto].
    rewrite P2, P1. unfold post_step. rewrite Rq. destruct (c_resp c) as [r0|] eqn:E; [rewrite E; reflexivity|]. cbn [set_from m_TID]. rewrite Tx, Z.eqb_refl. reflexivity.
Qed.

(** ** One call *)
Definition tids (x : list site) : list Z := map (fun d => g_tid (ln_mgr (t_node d))) x.
Lemma parley_one (PS : PySet) x Ss q Sd : settled x Ss -> acquainted x q -> nth_error Ss (q_to q) = Some Sd -> call_ok Sd (q_code q) (q_call q) ->
  (forall j, (j < q_req q)%nat -> call_ok (store_times j Sd (q_code q) (q_call q)) (q_code q) (q_call q)) ->
  exists x' d t, nth_error x (q_to q) = Some d /\ nth_error (tids x) (q_by q) = Some t /\
  parley_call x q = (x', option_map (fun '(e, ps, ss, gs) =>
      mkmsg (t mod 65535 + 1) (comes_from (t_node d) (q_code q)) 0x0EF001 e ps ss gs (Some (t_addr d)) None) (hd_error (copies (q_ans q) (store_replies (q_req q) Sd (q_code q) (q_call q))))) /\
  settled x' (stores_after Ss q) /\ kins x x' /\ tids x' = upd (tids x) (q_by q) (t mod 65535 + 1).
Proof.
  intros (Le & Se) (c & d & Ec & Ed & (cc & nd & Cc & Nd) & Ds' & Hjd & Hjc) Es Ok_ Oks. destruct q as [i k jd jc de code kl rq ra]. cbn [q_by q_to q_jd q_jc q_dst q_code q_call q_req q_ans] in *.
  destruct (nth_error Ss i) as [Si|] eqn:Ei; [|apply nth_error_None in Ei; apply nth_len in Ec; lia].
  destruct (Se i c Si Ec Ei) as (Qc & Rc & Lc & Tc & Mc & Sc). destruct (Se k d Sd Ed Es) as (Qd & Rd & Ld & Td & Md & Sod).
  pose proof Ok_ as (Co & En & Dp & Ds & _). pose proof (next_tid_range (t_node c)) as Ti. assert (T0 : m_TID (request code kl) = 0) by (destruct kl; reflexivity).
  assert (Oc : online (t_node c) jc) by (apply listens_online; assumption).
  destruct (ctl_sends (t_os c) (t_tr c) (t_node c) jc (t_addr c) (t_addr d) de (request code kl) cc Qc Rc (leads_addr _ _ Ds') Oc Cc Tc T0 En) as (m' & tc & CS & Tm & Re).
  set (s1 := set_ln_ctl (Some (set_post (Some m') None cc)) (set_ln_mgr (mkmgr (next_tid (t_node c)) (g_servers (ln_mgr (t_node c)))) (t_node c))).
  assert (PB : post_begin (t_os c) (t_tr c) (t_node c) (request code kl) de = (s1, tc, m', Ok true)) by (unfold post_begin; rewrite Cc, CS; reflexivity).
  exists (fst (parley_call x (mkquery i k jd jc de code kl rq ra))), d, (g_tid (ln_mgr (t_node c))). split; [exact Ed|]. split; [unfold tids; rewrite nth_error_map, Ec; reflexivity|].
  unfold parley_call. cbn [q_by q_to q_jd q_jc q_dst q_code q_call q_req q_ans]. rewrite Ec, Ed, PB, Re.
  set (c1 := mksite (t_os c) (t_addr c) s1 tc (t_from c)).
  assert (K1 : kin c c1).
  { split; [reflexivity|]. split; [reflexivity|]. split; [reflexivity|]. cbn [t_node c1]. unfold s1. cbn [set_ln_ctl ln_ctl]. split; [rewrite Cc; split; discriminate|]. intros ip (c0 & n & A & B). assert (c0 = cc) by congruence. subst c0. do 2 eexists. split; [reflexivity|exact B]. }
  rewrite (nth_upd_is _ _ c1 _ k Ec).
  set (d1 := if (k =? i)%nat then c1 else d).
  assert (E1 : (if (k =? i)%nat then Some c1 else nth_error x k) = Some d1) by (subst d1; rewrite Ed; destruct (k =? i)%nat; reflexivity). rewrite E1.
  assert (G1 : quiet (t_os d1) /\ reliable (t_os d1) /\ listens (t_node d1) /\ 0 <= g_tid (ln_mgr (t_node d1)) <= 65535 /\ mirrors (t_node d1) Sd /\ (jd < servers_of (t_node d1))%nat /\ kin d d1).
  { subst d1. destruct (Nat.eqb_spec k i) as [->|N]; [|repeat (split; [assumption|]); apply kin_refl]. assert (d = c) as -> by congruence. assert (Sd = Si) as -> by congruence.
    split; [exact Qc|]. split; [exact Rc|]. split; [exact Lc|]. split; [cbn [t_node c1]; unfold s1; cbn [set_ln_ctl set_ln_mgr ln_mgr g_tid]; lia|]. split; [exact Mc|]. split; [exact Hjd|exact K1]. }
  destruct G1 as (Q1 & R1 & L1 & T1 & M1 & J1 & K1').
  set (Sn := store_times rq Sd code kl).
  destruct (node_copies PS (t_os d1) jd (t_addr c) (t_node c) code kl rq (t_tr d1) (t_node d1) Sd Q1 R1 (listens_online _ _ L1 J1) M1 Sod Oks) as (sd2 & td & A2 & _ & G2 & C2 & I2 & M2 & S2 & Fa & Ra).
  fold Sn in M2, S2.
  set (d2 := mksite (t_os d1) (t_addr d1) sd2 td (t_from d1)).
  match goal with |- context [takes d1 jd (t_addr c) ?l] => assert (D2 : takes d1 jd (t_addr c) l = d2) by (unfold takes; change (copies [rq] ?z) with (repeat (hd [] z) rq ++ []); cbn [hd]; rewrite app_nil_r, A2; reflexivity) end.
  cbv zeta. rewrite !D2.
  assert (K2 : kin d1 d2).
  { split; [reflexivity|]. split; [reflexivity|]. cbn [t_node d2]. split; [now rewrite G2|]. rewrite C2. split; [tauto|]. unfold has_found. rewrite C2. auto. }
  assert (X1 : nth_error (upd x i c1) k = Some d1) by (rewrite (nth_upd_is _ _ c1 _ k Ec); exact E1).
  rewrite (nth_upd_is _ _ d2 _ i X1). set (c2 := if (i =? k)%nat then d2 else c1).
  assert (X2 : (if (i =? k)%nat then Some d2 else nth_error (upd x i c1) i) = Some c2).
  { subst c2. rewrite (nth_upd_is _ _ c1 _ i Ec), Nat.eqb_refl. destruct (i =? k)%nat; reflexivity. }
  rewrite X2. cbn [t_tr d2].
  assert (H2 : ln_ctl (t_node c2) = Some (set_post (Some m') None cc) /\ quiet (t_os c2) /\ online (t_node c2) jc /\ kin c1 c2 /\ g_tid (ln_mgr (t_node c2)) = next_tid (t_node c) /\
    (i = k -> mirrors (t_node c2) Sn) /\ (i <> k -> mirrors (t_node c2) Si)).
  { subst c2. destruct (Nat.eqb_spec i k) as [->|N].
    - assert (D1c : d1 = c1) by (subst d1; now rewrite Nat.eqb_refl). clearbody d1. subst d1. cbn [t_node d2 t_os]. rewrite C2. split; [reflexivity|]. split; [exact Qc|]. split; [|split; [exact K2|split; [rewrite G2; reflexivity|split; [intros _; exact M2|congruence]]]].
      split; [rewrite I2; exact (proj1 Lc)|]. destruct Oc as (_ & v & V & W). exists v. split; [unfold server_at; rewrite G2; exact V|exact W].
    - split; [reflexivity|]. split; [exact Qc|]. split; [exact Oc|]. split; [apply kin_refl|]. split; [reflexivity|]. split; [congruence|]. intros _. exact Mc. }
  destruct H2 as (Cc2 & Q2 & O2 & Kc2 & G2' & Mi1 & Mi2).
  (* what the last step does *)
  assert (F3 : exists c3, takes c2 jc (t_addr d) (copies ra (reach (t_addr c) (since (t_tr d1) td))) = c3 /\ kin c2 c3 /\ ln_mgr (t_node c3) = ln_mgr (t_node c2) /\ ln_objs (t_node c3) = ln_objs (t_node c2) /\
    post_end (t_node c3) = option_map (fun '(e, ps, ss, gs) => mkmsg (next_tid (t_node c)) (comes_from (t_node d) code) 0x0EF001 e ps ss gs (Some (t_addr d)) None) (hd_error (copies ra (store_replies rq Sd code kl)))).
  { assert (Cf : comes_from (t_node d1) code = comes_from (t_node d) code).
    { unfold comes_from. destruct K1' as (_ & _ & _ & (P1 & P2) & _). destruct (ln_ctl (t_node d)), (ln_ctl (t_node d1)); try reflexivity; [specialize (P1 eq_refl)|specialize (P2 eq_refl)]; discriminate. }
    rewrite Cf in Fa, Ra.
    set (as_ := copies ra (store_replies rq Sd code kl)). assert (Fs : Forall (fun y => good_answer y /\ m_TID y = m_TID m') (map (answer_of (next_tid (t_node c)) (comes_from (t_node d) code)) as_)).
    { apply Forall_forall. intros y Hy. apply in_map_iff in Hy as (an & <- & Ha). apply copies_in in Ha. rewrite Forall_forall in Fa. split; [exact (Fa an Ha)|]. rewrite Tm. destruct an as [[[e ps] ss] gs]. reflexivity. }
    destruct (cli_copies PS (t_os c2) jc (t_addr d) m' _ (t_tr c2) (t_node c2) _ nd Q2 O2 Cc2 Nd Fs eq_refl) as (c' & te & A3 & Rq & Rs & Mo).
    assert (Ec3 : copies ra (reach (t_addr c) (since (t_tr d1) td)) = map wire (map (answer_of (next_tid (t_node c)) (comes_from (t_node d) code)) as_)) by (rewrite Ra, copies_map, map_map; reflexivity).
    rewrite Ec3. unfold takes. rewrite A3. eexists. split; [reflexivity|]. cbn [t_node]. split; [|split; [reflexivity|split; [reflexivity|]]].
    - split; [reflexivity|]. split; [reflexivity|]. split; [reflexivity|]. cbn [t_node set_ln_ctl ln_ctl]. rewrite Cc2. split; [split; discriminate|]. intros ip (c0 & n0 & B1 & B2). assert (c0 = set_post (Some m') None cc) by congruence. subst c0.
      exists c'. destruct (sget ip (c_found c')) as [n1|] eqn:Gi; [exists n1; split; reflexivity|]. exfalso. refine (Mo ip _ Gi). intros HB. rewrite HB in B2. discriminate B2.
    - unfold post_end. cbn [ln_ctl set_ln_ctl]. rewrite Rs. cbn [set_post c_resp]. destruct as_ as [|[[[e ps] ss] gs] more]; reflexivity. }
  destruct F3 as (c3 & T3 & K3 & G3 & Ob3 & Pe). rewrite T3. cbn [fst]. rewrite Pe. split; [reflexivity|].
  assert (X3 : nth_error (upd (upd x i c1) k d2) i = Some c2) by (rewrite (nth_upd_is _ _ d2 _ i X1); exact X2).
  assert (Kx : kins x (upd (upd (upd x i c1) k d2) i c3)).
  { eapply kins_trans; [exact (kins_upd x i c c1 Ec K1)|]. eapply kins_trans; [exact (kins_upd _ k d1 d2 X1 K2)|]. exact (kins_upd _ i c2 c3 X3 K3). }
  split; [|split; [exact Kx|]].
  - unfold stores_after. cbn [q_to q_code q_call q_req]. rewrite Es. fold Sn. split; [rewrite !upd_len; exact Le|]. intros j e Se' He Hs.
    rewrite (nth_upd_is _ _ _ _ j Es) in Hs. rewrite (nth_upd_is _ _ c3 _ j X3) in He.
    destruct (Nat.eqb_spec j i) as [->|Ni].
    + assert (e = c3) as -> by congruence. pose proof (kin_trans _ _ _ K1 (kin_trans _ _ _ Kc2 K3)) as (H1 & _ & H3 & _). rewrite H1. split; [exact Qc|]. split; [exact Rc|]. split; [exact (listens_kin _ _ H3 Lc)|]. split; [rewrite G3, G2'; lia|].
      assert (Mm : forall Sx, mirrors (t_node c2) Sx -> mirrors (t_node c3) Sx) by (intros Sx H; unfold mirrors in *; rewrite Ob3; exact H).
      destruct (Nat.eqb_spec i k) as [E|N].
      * assert (Se' = Sn) as -> by congruence. split; [apply Mm, Mi1, E|exact S2].
      * assert (Se' = Si) as -> by congruence. split; [apply Mm, Mi2, N|exact Sc].
    + rewrite (nth_upd_is _ _ d2 _ j X1) in He. destruct (Nat.eqb_spec j k) as [->|Nk].
      * assert (e = d2) as -> by congruence. assert (Se' = Sn) as -> by congruence. split; [exact Q1|]. split; [exact R1|]. split; [apply (listens_kin (t_node d1)); [cbn [t_node d2]; now rewrite G2|exact L1]|]. cbn [t_node d2]. rewrite G2. split; [exact T1|]. split; [exact M2|exact S2].
      * rewrite (nth_upd_is _ _ c1 _ j Ec) in He. destruct (Nat.eqb_spec j i) as [|_]; [contradiction|]. exact (Se j e Se' He Hs).
  - apply nth_error_same_list. intros j. rewrite (nth_upd_is _ _ _ (g_tid (ln_mgr (t_node c)))) by (unfold tids; rewrite nth_error_map, Ec; reflexivity). unfold tids. rewrite !nth_error_map, (nth_upd_is _ _ c3 _ j X3).
    destruct (Nat.eqb_spec j i) as [->|Ni]; [cbn [option_map]; rewrite G3, G2'; reflexivity|]. rewrite (nth_upd_is _ _ d2 _ j X1). destruct (Nat.eqb_spec j k) as [->|Nk].
    + rewrite Ed. cbn [option_map t_node d2]. rewrite G2. subst d1. destruct (Nat.eqb_spec k i) as [|_]; [contradiction|]. reflexivity.
    + rewrite (nth_upd_is _ _ c1 _ j Ec). destruct (Nat.eqb_spec j i) as [|_]; [contradiction|]. reflexivity.
Qed.

(** ** The claims *)
Lemma L_C127_sessions_partial : forall (PS : PySet) l x Ss, settled x Ss -> Forall (acquainted x) l -> parley_ok Ss l ->
  exists x', parley l x = (x', parley_says x (map (fun d => g_tid (ln_mgr (t_node d))) x) Ss l) /\ settled x' (stores_run Ss l).
Proof.
  intros PS. induction l as [|q l IH]; intros x Ss St Aq Ok_. { exists x. auto. }
  destruct Ok_ as ((Sd & Es & Co & Cos) & Ok_). inversion Aq as [|? ? A1 A2]; subst. destruct (parley_one PS x Ss q Sd St A1 Es Co Cos) as (x1 & d & t & Ed & Et & P1 & S1 & K1 & T1).
  assert (A3 : Forall (acquainted x1) l).
  { revert A2. apply Forall_impl. intros q' (c0 & d0 & H1 & H2 & H3 & H0 & H4 & H5). destruct K1 as (_ & K1). destruct (K1 _ _ H1) as (c1 & E1 & _ & _ & G1 & _ & F1). destruct (K1 _ _ H2) as (d1 & E2 & _ & Ad & G2 & _).
    exists c1, d1. split; [exact E1|]. split; [exact E2|]. rewrite Ad. split; [exact (F1 _ H3)|]. split; [exact H0|]. unfold servers_of in *. rewrite G1, G2. auto. }
  destruct (IH x1 _ S1 A3 Ok_) as (x2 & P2 & S2). exists x2. split; [|exact S2]. cbn [parley]. rewrite P1, P2. cbn [parley_says]. rewrite Ed, Es. fold (tids x). rewrite Et.
  fold (tids x1). rewrite T1. rewrite (says_kins l x x1 _ _ K1). reflexivity.
Qed.

(** After any traffic of searches. *)
Lemma L_C127_ready : forall (PS : PySet) sites ls sched, crowd sites ls ->
  length (crowd_run sched sites) = length sites /\
  (forall k d, nth_error (crowd_run sched sites) k = Some d -> quiet (t_os d) /\ reliable (t_os d) /\ listens (t_node d) /\ 0 <= g_tid (ln_mgr (t_node d)) <= 65535) /\
  forall q c cc d, nth_error sites (q_by q) = Some c -> ln_ctl (t_node c) = Some cc -> nth_error sites (q_to q) = Some d -> told sites (q_to q) (q_by q) sched -> leads (q_dst q) (t_addr d) ->
  (q_jd q < servers_of (t_node d))%nat -> (q_jc q < servers_of (t_node c))%nat -> acquainted (crowd_run sched sites) q.
Proof.
  intros PS sites ls sched Cr. destruct (crowd_all sites ls Cr sched) as (Le & W). split; [exact Le|]. split.
  - intros k d' H. destruct (nth_error sites k) as [d|] eqn:K; [|apply nth_error_None in K; apply nth_len in H; lia]. destruct (crowd_list sites ls Cr k d K) as (l & El).
    destruct (W k d l K El) as (d2 & Ed & (Eo & _ & _ & _ & _ & Li & Tg & _) & _). assert (d2 = d') as -> by congruence. rewrite Eo.
    pose proof (proj1 Cr) as Ho. pose proof (Forall2_nth _ _ _ Ho k) as Hk. rewrite K, El in Hk. destruct Hk as (_ & _ & _ & Q & R & _). auto.
  - intros q c cc d Kc C Kd T Hl Hd Hc. destruct (crowd_list sites ls Cr _ c Kc) as (l & El). destruct (crowd_list sites ls Cr _ d Kd) as (l' & El').
    destruct (W _ c l Kc El) as (c' & Ec & (_ & _ & Es & _) & S0). rewrite C in S0. destruct S0 as (c2 & Ec2 & _ & _ & T2). destruct (T2 _ d Kd T) as (nd & G).
    destruct (W _ d l' Kd El') as (d' & Ed & (_ & Ea & Es' & _) & _).
    exists c', d'. split; [exact Ec|]. split; [exact Ed|]. rewrite Ea, Es, Es'. split; [exists c2, nd; auto|]. split; [exact Hl|auto].
Qed.

(** ** What goes wrong *)
Definition pl_site (ip : string) : site := mksite good_os (ip, 3610) hm_node [] 0.
Lemma L_C127_source_refuted : exists x Ss q c d, settled x Ss /\ acquainted x q /\ parley_ok Ss [q] /\
  nth_error x (q_by q) = Some c /\ nth_error x (q_to q) = Some d /\ q_by q <> q_to q /\ q_code q = 0x029101 /\ q_call q = KRead [0x80] /\
  exists (PS : PySet) x' m c' cc nd o, parley_call x q = (x', Some m) /\ m_ESV m = 0x72 /\ m_props m = [mkprop 0x80 [0x31]] /\ m_SEOJ m = 0x0EF001 /\
  nth_error x' (q_by q) = Some c' /\ ln_ctl (t_node c') = Some cc /\ sget (fst (t_addr d)) (c_found cc) = Some nd /\
  zget 0x0EF001 (n_objs nd) = Some o /\ get_property_data 0x80 o = Some [0x31] /\
  option_map (get_property_data 0x80) (zget 0x0EF001 (ln_objs (t_node d))) = Some (Some [0x30]).
Proof.
  destruct hm_home as ((O & _ & Hf & Tg) & M & St & Co).
  assert (Ls : listens hm_node).
  { split; [exact (proj1 O)|]. intros i v Hv. assert (F : Forall (fun v => s_alive v = true /\ s_obs v = [ONode]) (g_servers (ln_mgr hm_node))) by (vm_compute; repeat constructor). rewrite Forall_forall in F. apply F. apply nth_error_In with i. exact Hv. }
  exists [pl_site "10.0.0.9"; pl_site "10.0.0.8"], [hm_store; hm_store], (mkquery 0 1 2 2 (DStr "10.0.0.8") 0x029101 (KRead [0x80]) 1 [1%nat]), (pl_site "10.0.0.9"), (pl_site "10.0.0.8").
  split. { split; [reflexivity|]. intros k d Sd Hd Hs. assert (t_os d = good_os /\ t_node d = hm_node) as (-> & ->) by (destruct k as [|[|[|k]]]; cbn in Hd; try discriminate; injection Hd as <-; split; reflexivity).
    assert (Sd = hm_store) as -> by (destruct k as [|[|[|k]]]; cbn [nth_error] in Hs; congruence). split; [exact good_quiet|]. split; [exact good_reliable|]. auto. }
  split. { do 2 eexists. split; [reflexivity|]. split; [reflexivity|]. split; [exact Hf|]. split; [reflexivity|]. split; apply Nat.ltb_lt; vm_compute; reflexivity. }
  split. { split; [|exact Logic.I]. exists hm_store. split; [reflexivity|]. split; [exact Co|]. intros [|j] Hj; [exact Co|cbn in Hj; lia]. }
  split; [reflexivity|]. split; [reflexivity|]. split; [discriminate|]. split; [reflexivity|]. split; [reflexivity|].
  exists pyset_nodup. do 6 eexists. split; [vm_compute; reflexivity|]. do 3 (split; [reflexivity|]). split; [reflexivity|]. split; [reflexivity|]. split; [vm_compute; reflexivity|]. split; [vm_compute; reflexivity|]. split; vm_compute; reflexivity.
Qed.

(** ** Searches change no object *)
Definition alike (s s' : lnode) : Prop := forall code, zget code (ln_objs s') = zget code (ln_objs s).
Lemma search_alike (PS : PySet) w tr s codes a j b s' tr' v : quiet w -> reliable w -> ready codes s -> the_search b ->
  server_at s j = Some v -> s_alive v = true -> s_obs v = [ONode] -> deliver w tr s j (b, a) = (s', tr') -> alike s s'.
Proof.
  intros Q R RD (t & Ht & Eb) V A O H. pose proof (search_frame t Ht) as Fr.
  assert (Hm : received_from a (set_from (Some a) (set_TID t search_message))) by (eexists; split; [exact Fr|reflexivity]).
  destruct (node_received_spec w tr s a _ Hm) as (s1 & ev1 & r & N & L & _). specialize (L (or_intror eq_refl)).
  rewrite (hear_frame PS w tr s j v b a (set_TID t search_message) s1 (tr ++ ev1) r V A O) in H; try exact N.
  2:{ rewrite Eb. apply wire_bytes_ok; apply Fr. }
  2:{ rewrite Eb. apply search_short. }
  2:{ split; [exact Fr|]. exists []. rewrite app_nil_r. exact Eb. }
  assert (K : alike s s1).
  { destruct RD as ((_ & _ & _ & p & Zp & P & SH) & DK & _). destruct SH as (_ & _ & D6 & _). change NP with 0x0EF001 in Zp.
    pose proof (search_step a _ p P Hm (conj eq_refl (conj eq_refl eq_refl)) _ D6) as Om. unfold local_spec in L.
    change (m_DEOJ (set_from (Some a) (set_TID t search_message))) with 0x0EF001 in L, Om. rewrite Zp in L. destruct L as (oe & sn & _ & _ & [(_ & -> & _)|L]); [intros c; reflexivity|].
    rewrite Om in L. destruct L as (_ & g' & -> & _). intros c. change (ln_objs (set_ln_mgr g' (put_obj 0x0EF001 p s))) with (zset 0x0EF001 p (ln_objs s)).
    rewrite (dget_dset Z.eqb zeqb_eq). destruct (Z.eqb_spec c 0x0EF001) as [->|_]; [symmetry; exact Zp|reflexivity]. }
  destruct r as [[]|e]; [assert (s' = s1) as -> by congruence; exact K|]. assert (s' = kill j s1) as -> by congruence. intros c. rewrite (proj1 (proj2 (proj2 (kill_shape j s1)))). apply K.
Qed.
Lemma answer_alike (PS : PySet) w tr s c l an b j v s' tr' : ln_ctl s = Some c -> is_answer l b ->
  server_at s j = Some v -> s_alive v = true -> s_obs v = [ONode] -> deliver w tr s j (b, an) = (s', tr') -> alike s s'.
Proof.
  intros C An V A O H. pose proof An as (rsp & D & Bo & Lb & E1 & _).
  assert (Hr : received_from an (set_from (Some an) rsp)) by (exists rsp; split; [apply D|reflexivity]).
  destruct (node_received_spec w tr s an _ Hr) as (s1 & evs & r & N & _ & L).
  assert (NR : is_request (m_ESV (set_from (Some an) rsp)) = false) by (cbn [set_from m_ESV]; rewrite E1; reflexivity).
  destruct (L ltac:(congruence) NR) as (F & c' & Es). rewrite (hear_frame PS w tr s j v b an rsp s1 (tr ++ evs) r V A O Bo Lb D N) in H. subst s1.
  destruct r as [[]|e].
  - assert (s' = set_ln_ctl (Some c') s) as -> by congruence. intros k. reflexivity.
  - assert (s' = kill j (set_ln_ctl (Some c') s)) as -> by congruence. intros k. rewrite (proj1 (proj2 (proj2 (kill_shape j _)))). reflexivity.
Qed.
Lemma L_C127_kept : forall (PS : PySet) sites ls sched k d d', crowd sites ls -> nth_error sites k = Some d -> nth_error (crowd_run sched sites) k = Some d' ->
  forall code, zget code (ln_objs (t_node d')) = zget code (ln_objs (t_node d)).
Proof.
  intros PS sites ls sched k d d' Cr K. revert d'. induction sched as [|e a IH] using rev_ind; intros d' H; [cbn in H; assert (d' = d) as -> by congruence; reflexivity|].
  unfold crowd_run in H. rewrite fold_left_app in H. fold (crowd_run a sites) in H. cbn [fold_left] in H. destruct (crowd_all sites ls Cr a) as (Le & W).
  assert (Same : nth_error (crowd_run a sites) k = Some d' -> forall code, zget code (ln_objs (t_node d')) = zget code (ln_objs (t_node d))) by (apply IH).
  assert (Up : forall i p p', nth_error (crowd_run a sites) i = Some p -> nth_error (upd (crowd_run a sites) i p') k = Some d' -> (i = k -> alike (t_node p) (t_node p')) -> forall code, zget code (ln_objs (t_node d')) = zget code (ln_objs (t_node d))).
  { intros i p p' Hp Hu Al. rewrite (nth_upd_is _ _ _ _ k Hp) in Hu. destruct (Nat.eqb_spec k i) as [->|N]; [|exact (Same Hu)]. assert (d' = p') as -> by congruence. intros code. rewrite (Al eq_refl code). exact (IH p Hp code). }
  destruct e as [i|i n m j]; cbn [crowd_step] in H.
  - destruct (nth_error (crowd_run a sites) i) as [p|] eqn:P; [|exact (Same H)]. destruct (ln_ctl (t_node p)) as [c|] eqn:C; [|exact (Same H)].
    destruct (ctl_search (t_os p) (t_tr p) (t_node p)) as [[s tr] r] eqn:E. apply (Up i p _ P H). intros ->.
    destruct (crowd_list sites ls Cr k d K) as (l & El). destruct (W k d l K El) as (p1 & Ep & (_ & _ & _ & _ & _ & _ & Ti & _) & _). assert (p1 = p) as -> by congruence.
    destruct (search_sends _ _ _ c s tr r C Ti E) as (_ & _ & _ & _ & _ & _ & Ob & _). intros code. cbn [t_node]. now rewrite Ob.
  - destruct (nth_error (crowd_run a sites) i) as [p|] eqn:P; [|exact (Same H)]. destruct (nth_error (crowd_run a sites) m) as [q|] eqn:Qm; [|exact (Same H)].
    destruct (nth_error (outbox p) n) as [[b to]|] eqn:Eb; [|exact (Same H)]. destruct (for_site to q) eqn:Fs; [|exact (Same H)].
    apply (Up m q _ Qm H). intros ->. destruct (crowd_list sites ls Cr k d K) as (l & El). destruct (W k d l K El) as (q1 & Eq & Sq). assert (q1 = q) as -> by congruence.
    destruct (crowd_back sites _ i p Le P) as (p0 & Ip). destruct (crowd_list sites ls Cr i p0 Ip) as (li & Ili). destruct (W i p0 li Ip Ili) as (p1 & Ep & ((_ & _ & _ & _ & _ & _ & _ & Sk) & _)). assert (p1 = p) as -> by congruence.
    rewrite Forall_forall in Sk. specialize (Sk (b, to) (nth_error_In _ _ Eb)). destruct Sq as ((Eo & Ea & Es & Lt & (codes & RD & DC) & Li & Ti & _) & Tb).
    destruct (crowd_site sites ls Cr k d K) as (_ & _ & (_ & _ & _ & Q & R & _) & _ & Ng & _).
    destruct (server_at (t_node q) j) as [v|] eqn:V; [|rewrite hears_nothing by exact V; intros code; reflexivity]. destruct (proj2 Li j v V) as (Al & Ob).
    unfold hears. destruct (deliver (t_os q) (t_tr q) (t_node q) j (b, t_addr p)) as [s' tr'] eqn:De. cbn [t_node].
    destruct Sk as [(Et & Ts & Nc)|(An & k1 & d1 & K1 & Et & Nc)]; cbn [fst snd] in *.
    + rewrite <- Eo in Q, R. exact (search_alike PS _ _ _ codes _ j b s' tr' v Q R RD Ts V Al Ob De).
    + destruct (crowd_site sites ls Cr k1 d1 K1) as (_ & _ & _ & _ & Ng1 & _). unfold for_site in Fs. apply orb_prop in Fs. destruct Fs as [Fs|Fs]; apply addr_eqb_eq in Fs; [exfalso; apply Ng1; rewrite Et; exact Fs|].
      assert (k1 = k) by (apply (one_ip sites ls Cr k1 k d1 d K1 K); congruence). subst k1. assert (d1 = d) by congruence. subst d1. destruct (ln_ctl (t_node d)) as [c0|]; [|contradiction]. destruct Tb as (c & Cc & _).
      exact (answer_alike PS _ _ _ c li _ b j v s' tr' Cc An V Al Ob De).
Qed.

(** A network from its start: the controllers search, and then use what they have found. *)
Lemma L_C127_network_partial : forall (PS : PySet) sites ls sched Ss l, crowd sites ls -> length sites = length Ss ->
  (forall k d Sd, nth_error sites k = Some d -> nth_error Ss k = Some Sd -> mirrors (t_node d) Sd /\ store_ok Sd) ->
  Forall (fun q => exists c cc d, nth_error sites (q_by q) = Some c /\ ln_ctl (t_node c) = Some cc /\ nth_error sites (q_to q) = Some d /\
    told sites (q_to q) (q_by q) sched /\ leads (q_dst q) (t_addr d) /\ (q_jd q < servers_of (t_node d))%nat /\ (q_jc q < servers_of (t_node c))%nat) l -> parley_ok Ss l ->
  let x := crowd_run sched sites in
  exists x', parley l x = (x', parley_says x (map (fun d => g_tid (ln_mgr (t_node d))) x) Ss l) /\ settled x' (stores_run Ss l).
Proof.
  intros PS sites ls sched Ss l Cr Le M Aq Ok_ x. destruct (L_C127_ready PS sites ls sched Cr) as (Lx & Wk & Rd).
  apply L_C127_sessions_partial; [|revert Aq; apply Forall_impl; intros q (c & cc & d & H1 & H2 & H3 & H4 & H0 & H5 & H6); exact (Rd q c cc d H1 H2 H3 H4 H0 H5 H6)|exact Ok_].
  split; [subst x; rewrite Lx; exact Le|]. intros k d' Sd Hd Hs. destruct (nth_error sites k) as [d|] eqn:K; [|apply nth_error_None in K; apply nth_len in Hs; lia].
  destruct (Wk k d' Hd) as (W1 & W2 & W3 & W4). do 4 (split; [assumption|]). destruct (M k d Sd K Hs) as (M1 & M2). split; [|exact M2].
  intros code. rewrite (L_C127_kept PS sites ls sched k d d' Cr K Hd code). exact (M1 code).
Qed.

(** ** What one controller writes the others read *)
Lemma acquainted_kins x x' q : kins x x' -> acquainted x q -> acquainted x' q.
Proof.
  intros (_ & K) (c0 & d0 & H1 & H2 & H3 & H0 & H4 & H5). destruct (K _ _ H1) as (c1 & E1 & _ & _ & G1 & _ & F1). destruct (K _ _ H2) as (d1 & E2 & _ & Ad & G2 & _).
  exists c1, d1. split; [exact E1|]. split; [exact E2|]. rewrite Ad. split; [exact (F1 _ H3)|]. split; [exact H0|]. unfold servers_of in *. rewrite G1, G2. auto.
Qed.
Lemma parley_kins (PS : PySet) : forall l x Ss, settled x Ss -> Forall (acquainted x) l -> parley_ok Ss l ->
  exists x' al, parley l x = (x', al) /\ settled x' (stores_run Ss l) /\ kins x x' /\ length al = length l.
Proof.
  induction l as [|q l IH]; intros x Ss St Aq Ok_. { exists x, []. split; [reflexivity|]. split; [exact St|]. split; [apply kins_refl|reflexivity]. }
  destruct Ok_ as ((Sd & Es & Co & Cos) & Ok_). inversion Aq as [|? ? A1 A2]; subst. destruct (parley_one PS x Ss q Sd St A1 Es Co Cos) as (x1 & d & t & _ & _ & P1 & S1 & K1 & _).
  destruct (IH x1 _ S1 (Forall_impl _ (fun q' => acquainted_kins x x1 q' K1) A2) Ok_) as (x2 & al & P2 & S2 & K2 & Le).
  eexists x2, (_ :: al). cbn [parley]. rewrite P1, P2. split; [reflexivity|]. split; [exact S2|]. split; [exact (kins_trans _ _ _ K1 K2)|]. cbn. now rewrite Le.
Qed.
Lemma parley_app (PS : PySet) l2 : forall l1 x, parley (l1 ++ l2) x = let '(x1, a1) := parley l1 x in let '(x2, a2) := parley l2 x1 in (x2, a1 ++ a2).
Proof.
  induction l1 as [|q l1 IH]; intros x; cbn [parley app]; [destruct (parley l2 x); reflexivity|]. destruct (parley_call x q) as [x1 a]. rewrite IH. destruct (parley l1 x1) as [x2 al]. destruct (parley l2 x2). reflexivity.
Qed.
Lemma parley_ok_app l2 : forall l1 Ss, parley_ok Ss (l1 ++ l2) <-> parley_ok Ss l1 /\ parley_ok (stores_run Ss l1) l2.
Proof. induction l1 as [|q l1 IH]; intros Ss; cbn [parley_ok app stores_run fold_left]; [tauto|]. rewrite IH. unfold stores_run. tauto. Qed.

(** A property of an object of site [k] that holds [v] and may be read and written. *)
Definition holds (k : nat) (code c : Z) (v : list Z) (Ss : list store) : Prop :=
  exists Sd t, nth_error Ss k = Some Sd /\ Sd code = Some t /\ t c = Some (mkcell v true true).
Lemma after_pokes t kl : after t kl = pokes t (put_by kl). Proof. destruct kl; reflexivity. Qed.
Lemma pokes_other c l : forall ps t, ~ In c (map p_code ps) -> t c = Some l -> pokes t ps c = Some l.
Proof.
  unfold pokes. induction ps as [|p ps IH]; intros t N H; [exact H|]. cbn [fold_left]. apply IH; [intros I; apply N; right; exact I|]. unfold poke. rewrite H.
  replace (c =? p_code p) with false; [reflexivity|]. symmetry. apply Z.eqb_neq. intros ->. apply N. left. reflexivity.
Qed.
Lemma times_other Sd code code' kl c v t : forall n, Sd code = Some t -> t c = Some (mkcell v true true) -> (code' <> code \/ ~ In c (map p_code (put_by kl))) ->
  exists t', store_times n Sd code' kl code = Some t' /\ t' c = Some (mkcell v true true).
Proof.
  intros n. revert Sd t. induction n as [|n IH]; intros Sd t H1 H2 H3; [eauto|]. cbn [store_times]. unfold store_after at 1. destruct (Sd code') as [t1|] eqn:E; [|exact (IH Sd t H1 H2 H3)].
  destruct (Z.eqb_spec code code') as [<-|N].
  - apply (IH _ (after t1 kl)); [now rewrite Z.eqb_refl| |exact H3]. assert (t1 = t) as -> by congruence. destruct H3 as [H3|H3]; [congruence|]. rewrite after_pokes. exact (pokes_other c _ _ t H3 H2).
  - apply (IH _ t); [|exact H2|exact H3]. replace (code =? code') with false; [exact H1|]. symmetry. now apply Z.eqb_neq.
Qed.
Lemma holds_run k code c v : forall l Ss, holds k code c v Ss -> Forall (hands_off k code c) l -> holds k code c v (stores_run Ss l).
Proof.
  unfold stores_run. induction l as [|q l IH]; intros Ss H F; [exact H|]. inversion F as [|? ? Ho F']; subst. cbn [fold_left]. apply IH; [|exact F']. destruct H as (Sd & t & E1 & E2 & E3). unfold stores_after.
  destruct (nth_error Ss (q_to q)) as [S1|] eqn:E; [|exists Sd, t; auto]. unfold holds. rewrite (nth_upd_is _ _ _ _ k E). destruct (Nat.eqb_spec k (q_to q)) as [->|N]; [|exists Sd, t; auto].
  assert (S1 = Sd) as -> by congruence. destruct Ho as [Ho|Ho]; [rewrite Ho; exists Sd, t; auto|]. destruct (times_other Sd code (q_code q) (q_call q) c v t (q_req q) E2 E3) as (t' & T1 & T2); [destruct Ho as [Ho|Ho]; [contradiction|exact Ho]|]. exists (store_times (q_req q) Sd (q_code q) (q_call q)), t'. auto.
Qed.
Lemma times_write Sd code c v t dt : forall n, Sd code = Some t -> t c = Some (mkcell dt true true) ->
  exists t', store_times (S n) Sd code (KWrite [mkprop c v]) code = Some t' /\ t' c = Some (mkcell v true true).
Proof.
  intros n. revert Sd t dt. induction n as [|n IH]; intros Sd t dt H1 H2.
  - cbn [store_times]. unfold store_after. rewrite H1, Z.eqb_refl. eexists. split; [reflexivity|]. cbn [after pokes fold_left]. unfold poke. rewrite H2. cbn [p_code cl_write cl_read p_data]. rewrite Z.eqb_refl. reflexivity.
  - change (store_times (S (S n)) Sd code ?z) with (store_times (S n) (store_after Sd code z) code z). apply (IH _ (after t (KWrite [mkprop c v])) v).
    + unfold store_after. now rewrite H1, Z.eqb_refl.
    + cbn [after pokes fold_left]. unfold poke. rewrite H2. cbn [p_code cl_write cl_read p_data]. rewrite Z.eqb_refl. reflexivity.
Qed.
Lemma replies_read Sd code c v t : forall n, Sd code = Some t -> t c = Some (mkcell v true true) ->
  store_replies n Sd code (KRead [c]) = repeat (0x72, [mkprop c v], [], []) n.
Proof.
  intros n H1 H2. assert (Sr : forall Sx, (exists tx, Sx code = Some tx /\ tx c = Some (mkcell v true true)) -> store_replies n Sx code (KRead [c]) = repeat (0x72, [mkprop c v], [], []) n); [|apply Sr; eauto].
  induction n as [|n IH]; intros Sx (tx & A & B); [reflexivity|]. cbn [store_replies repeat]. rewrite IH.
  - unfold store_reply. rewrite A. cbn [reply forallb map]. unfold SpecSess.readable, show. rewrite B. reflexivity.
  - exists tx. unfold store_after. rewrite A, Z.eqb_refl. auto.
Qed.

Lemma pokes_any c : forall ps t dt, t c = Some (mkcell dt true true) -> exists dt', pokes t ps c = Some (mkcell dt' true true).
Proof.
  unfold pokes. induction ps as [|p ps IH]; intros t dt H; [eauto|]. cbn [fold_left]. assert (exists dt1, poke t p c = Some (mkcell dt1 true true)) as (dt1 & H1); [|exact (IH _ dt1 H1)].
  unfold poke. rewrite H. cbn [cl_write cl_read]. rewrite andb_true_r. destruct (c =? p_code p); eauto.
Qed.
Lemma times_any code code' kl c : forall n Sd, (exists t dt, Sd code = Some t /\ t c = Some (mkcell dt true true)) -> exists t dt, store_times n Sd code' kl code = Some t /\ t c = Some (mkcell dt true true).
Proof.
  induction n as [|n IH]; intros Sd (t & dt & H1 & H2); [eauto|]. cbn [store_times]. apply IH. unfold store_after. destruct (Sd code') as [t1|] eqn:E; [|eauto].
  destruct (Z.eqb_spec code code') as [<-|N]; [|eauto]. assert (t1 = t) as -> by congruence. rewrite after_pokes. destruct (pokes_any c (put_by kl) t dt H2) as (dt' & H). eauto.
Qed.
Lemma holds_any k code c : forall l Ss, (exists v, holds k code c v Ss) -> exists v, holds k code c v (stores_run Ss l).
Proof.
  unfold stores_run. induction l as [|q l IH]; intros Ss H; [exact H|]. cbn [fold_left]. apply IH. destruct H as (v & Sd & t & E1 & E2 & E3). unfold stores_after.
  destruct (nth_error Ss (q_to q)) as [S1|] eqn:E; [|exists v, Sd, t; auto]. unfold holds. rewrite (nth_upd_is _ _ _ _ k E). destruct (Nat.eqb_spec k (q_to q)) as [->|N]; [|exists v, Sd, t; auto].
  assert (S1 = Sd) as -> by congruence. destruct (times_any code (q_code q) (q_call q) c (q_req q) Sd) as (t' & dt & T1 & T2); [eauto|]. exists dt, (store_times (q_req q) Sd (q_code q) (q_call q)), t'. auto.
Qed.
Lemma L_C127_seen : forall (PS : PySet) x Ss l1 w l2 r d o p c v n nl, settled x Ss -> Forall (acquainted x) (l1 ++ w :: l2 ++ [r]) -> parley_ok Ss (l1 ++ w :: l2 ++ [r]) ->
  (* after any calls [w] writes a property that may be written and read, and arrives; *)
  nth_error x (q_to w) = Some d -> zget (q_code w) (ln_objs (t_node d)) = Some o -> get_property c o = Some p -> can_read p = true -> may_write (o_handler o) p = true ->
  q_call w = KWrite [mkprop c v] -> (0 < q_req w)%nat ->
  (* the next calls do not write it, *)
  Forall (hands_off (q_to w) (q_code w) c) l2 ->
  (* and [r] reads it: another controller or the same *)
  q_to r = q_to w -> q_code r = q_code w -> q_call r = KRead [c] -> (0 < q_req r)%nat -> q_ans r = S n :: nl ->
  exists x' al m, parley (l1 ++ w :: l2 ++ [r]) x = (x', al ++ [Some m]) /\ m_ESV m = 0x72 /\ m_props m = [mkprop c v] /\ m_from m = Some (t_addr d).
Proof.
  intros PS x Ss l1 w l2 r d o p c v n nl St Aq Ok_ Ed Zo Gp Cr Mw Kw Nw F2 Rt Rc Rk Nr Ra.
  replace (l1 ++ w :: l2 ++ [r]) with ((l1 ++ w :: l2) ++ [r]) in * by now rewrite <- app_assoc. set (l := l1 ++ w :: l2) in *.
  apply Forall_app in Aq as (Aq1 & Aq2). inversion Aq2 as [|? ? Ar _]; subst. apply parley_ok_app in Ok_ as (Ok1 & ((Sd & Es & Co & Cos) & _)).
  assert (Hd : exists v0, holds (q_to w) (q_code w) c v0 Ss).
  { destruct St as (Le & Se). destruct (nth_error Ss (q_to w)) as [S0|] eqn:E0; [|apply nth_error_None in E0; apply nth_len in Ed; lia]. destruct (Se _ d S0 Ed E0) as (_ & _ & _ & _ & M & _).
    specialize (M (q_code w)). rewrite Zo in M. destruct (S0 (q_code w)) as [t0|] eqn:T0; [|contradiction]. destruct M as (_ & _ & M). specialize (M c). rewrite Gp in M. cbn [option_map] in M. unfold cell_of in M. rewrite Cr, Mw in M.
    exists (op_data p), S0, t0. auto. }
  assert (Hh : holds (q_to w) (q_code w) c v (stores_run Ss l)).
  { unfold l, stores_run. rewrite fold_left_app. cbn [fold_left]. apply (holds_run (q_to w) (q_code w) c v l2); [|exact F2]. destruct (holds_any _ _ _ l1 Ss Hd) as (v1 & S1 & t1 & A1 & A2 & A3). unfold stores_run in A1.
    generalize dependent (fold_left stores_after l1 Ss). intros Sl A1.
    unfold stores_after. rewrite A1, Kw. destruct (q_req w) as [|m] eqn:Q; [lia|]. destruct (times_write S1 (q_code w) c v t1 v1 m A2 A3) as (t' & B1 & B2). exists (store_times (S m) S1 (q_code w) (KWrite [mkprop c v])), t'.
    split; [|auto]. rewrite (nth_upd_is _ _ _ _ _ A1), Nat.eqb_refl. reflexivity. }
  destruct (parley_kins PS l x Ss St Aq1 Ok1) as (x1 & al & P1 & S1 & K1 & _).
  destruct (parley_one PS x1 _ r Sd S1 (acquainted_kins _ _ _ K1 Ar) Es Co Cos) as (x2 & d2 & t & Ed2 & _ & P2 & _).
  assert (Ea : t_addr d2 = t_addr d). { destruct K1 as (_ & K1). rewrite Rt in Ed2. destruct (K1 _ _ Ed) as (d3 & E3 & _ & E4 & _). congruence. }
  destruct Hh as (Sx & tx & H1 & H2 & H3). rewrite Rt in Es. assert (Sx = Sd) as -> by congruence.
  rewrite Rc, Rk, (replies_read Sd _ c v tx (q_req r) H2 H3), Ra in P2. destruct (q_req r) as [|m] eqn:Q; [lia|]. cbn [repeat copies combine flat_map app hd_error option_map] in P2. rewrite Ea in P2.
  exists x2, al. eexists. rewrite parley_app, P1. cbn [parley]. rewrite P2. split; [reflexivity|]. split; [reflexivity|]. split; reflexivity.
Qed.
