(** Lemmas for C97. *)
From Verif Require Import PyBase BytesM EsvM MsgM PropM ObjM DbData DbM NodeM LocalM CtrlM
  SpecWire SpecObj SpecReq SpecDb SpecNode SpecProf SpecLocal SpecSrv SpecCtrl SpecEnd SpecSess SpecMany SpecMulti DictP BytesP WireP CodecP ObjP MapP ReqP DbP NodeP ProfP LocalP AnswerP SrvP CtrlP EndP SessP BenchP ManyP.
From Verif Require Import SpecReq.
Require Import ZifyBool Permutation.

Lemma aeqb_eq a b : addr_eqb a b = true <-> a = b.
Proof.
  unfold addr_eqb. split; [|intros ->; rewrite String.eqb_refl, Z.eqb_refl; reflexivity].
  intros H. apply andb_prop in H as (H1 & H2). apply String.eqb_eq in H1. apply Z.eqb_eq in H2. destruct a, b. cbn in *. congruence.
Qed.
Lemma aeqb_refl a : addr_eqb a a = true. Proof. apply aeqb_eq. reflexivity. Qed.
Lemma aeqb_neq a b : a <> b -> addr_eqb a b = false.
Proof. intros N. destruct (addr_eqb a b) eqn:E; [|reflexivity]. apply aeqb_eq in E. contradiction. Qed.

(** ** The datagrams that reach the peers *)
Lemma to_peers_none from evs a0 l k : (forall a, a <> a0 -> reach a evs = []) -> ~ In a0 (map y_addr l) ->
  concat (map (fun '(i, c) => map (pair (from : nat, i)) (reach (y_addr c) evs)) (combine (seq k (length l)) l)) = [].
Proof.
  intros O. revert k. induction l as [|y l IH]; intros k N; [reflexivity|]. cbn [length seq combine map concat In] in *.
  rewrite (O (y_addr y)) by (intros E; apply N; left; exact E). cbn [map app]. apply IH. intros E. apply N. right. exact E.
Qed.
Lemma to_peers_gen from evs a0 bs l k : NoDup (map y_addr l) -> reach a0 evs = bs -> (forall a, a <> a0 -> reach a evs = []) ->
  forall i c, nth_error l i = Some c -> y_addr c = a0 ->
  concat (map (fun '(i, c) => map (pair (from : nat, i)) (reach (y_addr c) evs)) (combine (seq k (length l)) l)) = map (pair (from, (k + i)%nat)) bs.
Proof.
  intros N R O. revert k. induction l as [|x l IH]; intros k i c E A; [destruct i; discriminate|]. cbn [map] in N. apply NoDup_cons_iff in N as (N1 & N2).
  cbn [length seq combine map concat]. destruct i as [|i]; cbn [nth_error] in E.
  - assert (x = c) by congruence. subst x. rewrite A, R, Nat.add_0_r. rewrite (to_peers_none from evs a0 l (S k) O) by (rewrite <- A; exact N1). apply app_nil_r.
  - rewrite (O (y_addr x)), (IH N2 (S k) i c E A); [cbn [map app]; f_equal; f_equal; f_equal; lia|]. intros Ex. apply N1. rewrite Ex, <- A. apply in_map. apply nth_error_In in E. exact E.
Qed.
Lemma to_peers_sent from evs a0 i b n l : NoDup (map y_addr l) -> sent evs = [(i, b, a0, Ok n)] -> 0 < n ->
  forall d c, nth_error l d = Some c -> y_addr c = a0 -> to_peers from l evs = [(from, d, b)].
Proof.
  intros N Se Np d c E A. unfold to_peers. rewrite (to_peers_gen from evs a0 [b] l 0 N (reach_one _ _ _ _ _ Se Np)) with (i := d) (c := c);
    [reflexivity|intros a Na; exact (reach_other _ _ _ _ _ _ Se Na)|exact E|exact A].
Qed.
Lemma to_peers_lost from evs a0 i b n l : sent evs = [(i, b, a0, Ok n)] -> ~ In a0 (map y_addr l) -> to_peers from l evs = [].
Proof. intros Se N. apply (to_peers_none from evs a0); [intros a Na; exact (reach_other _ _ _ _ _ _ Se Na)|exact N]. Qed.
Lemma to_peers_empty from evs l : sent evs = [] -> to_peers from l evs = [].
Proof.
  intros Se. unfold to_peers. generalize 0%nat. induction l as [|y l IH]; intros k; [reflexivity|]. cbn [length seq combine map concat]. rewrite (reach_none _ _ Se). apply IH.
Qed.

(** ** The controller sends *)
Lemma ctl_sends2 wc tr sc jc ac an d m c : quiet wc -> reliable wc -> dest_addr d = Some an -> online sc jc -> ln_ctl sc = Some c ->
  0 <= g_tid (ln_mgr sc) <= 65535 -> m_TID m = 0 -> encodable m ->
  exists m' tc i n, ctl_send wc tr sc m d = (set_ln_mgr (mkmgr (next_tid sc) (g_servers (ln_mgr sc))) sc, tc, m', Ok true) /\
  m_TID m' = next_tid sc /\ sent (since tr tc) = [(i, wire (as_received sc ac m), an, Ok n)] /\ 0 < n.
Proof.
  intros Qc Rc Da Oc C Tc T0 Em. set (t := next_tid sc). set (q := as_received sc ac m).
  destruct (local_send wc tr sc m (Some an)) as [[[c1 tc1] m1] r1] eqn:LS.
  destruct (local_send_ok wc tr sc m an) as (g' & t' & St & Gs & K & _). destruct (K Em) as (snds & m' & r & E & (Tri & Fo) & Re). clear K.
  rewrite LS in E. injection E as -> -> -> ->.
  unfold stamped in St. rewrite T0 in St. cbn [Z.eqb] in St. rewrite next_tid_spec in St by exact Tc. change (g_tid (ln_mgr sc) mod 65535 + 1) with t in St.
  assert (g' = mkmgr t (g_servers (ln_mgr sc)) /\ t' = t) as (-> & ->) by (split; congruence). clear St.
  assert (Wq : wire (set_TID t (set_SEOJ (source sc m) m)) = wire q).
  { unfold source. rewrite C. subst q t. destruct m. reflexivity. }
  rewrite Wq in Tri.
  pose proof (tries_reliable wc _ _ _ _ (wire_nonempty q) Rc Tri Fo) as TR. destruct (open_ifs sc) as [|i ifs] eqn:Oi; [exfalso; apply (proj1 Oc); exact Oi|].
  destruct TR as (n & -> & Np).
  assert (r = Ok true) as ->.
  { destruct r as [b|e].
    - destruct Re as (_ & Re). f_equal. apply Re. exists (i, wire q, an, Ok n). split; [now left|]. unfold delivered. cbn [snd]. lia.
    - exfalso. destruct Re as (y & [<-|[]] & Y). discriminate. }
  pose proof (local_send_tid wc tr sc m (Some an) _ _ _ _ T0 LS) as Tm. cbn [ln_mgr set_ln_mgr g_tid] in Tm.
  exists m', (tr ++ map ev_of [(i, wire q, an, Ok n)]), i, n. split; [|split; [exact Tm|split; [|exact Np]]].
  - unfold ctl_send. rewrite Da, LS. reflexivity.
  - rewrite since_app. apply sent_evs.
Qed.

(** ** The answer arrives at the controller *)
Definition knows (l : ctl) (ip : string) : Prop := exists nd, sget ip (c_found l) = Some nd.
Lemma knows_set l ip k nd : knows l ip -> knows (set_found (sset k nd (c_found l)) l) ip.
Proof. intros (n & H). unfold knows. cbn [c_found set_found]. rewrite (dget_dset String.eqb seqb_eq). match goal with |- context [if ?b then _ else _] => destruct b end; eauto. Qed.
Lemma cli_gets2 (PS : PySet) wc tr sc jc an rsp c : quiet wc -> online sc jc -> ln_ctl sc = Some c -> knows c (fst an) ->
  good_answer rsp ->
  exists c' tc, arrive wc tr sc jc an [wire rsp] = (set_ln_ctl (Some c') sc, tc) /\ (forall ip, knows c ip -> knows c' ip) /\
  c_req c' = c_req c /\ c_resp c' = c_resp (post_step (set_from (Some an) rsp) c).
Proof.
  intros Qc Oc C (nd & Nd) (Fr & Lr & N73 & NRq & Dj & El). set (m2 := set_from (Some an) rsp).
  assert (Hr : received_from an m2) by (exists rsp; split; [exact Fr|reflexivity]).
  change (is_request (m_ESV m2) = false) in NRq.
  destruct (node_received wc tr sc m2) as [[sc2 tc2] rc] eqn:NC.
  destruct (step_of PS wc tr sc c an m2 sc2 tc2 rc Qc C Hr NC) as (c2 & C2 & _ & CR). specialize (CR NRq).
  pose proof (ctl_node_received PS wc tr sc c an m2 sc2 tc2 rc C Hr NC) as CN. rewrite NRq in CN. destruct CN as (c3 & CR3 & Es2).
  assert (c3 = c2) by congruence. subst c3. clear CR3.
  rewrite (ctl_response_eq wc tr c an m2 Qc Hr NRq) in CR.
  change (m_DEOJ m2) with (m_DEOJ rsp) in CR. rewrite Dj in CR. change (negb (0x0EF001 =? 0x0EF001)) with false in CR. rewrite andb_false_r in CR.
  assert (El2 : from_profile m2 && empty_list m2 = false).
  { destruct (from_profile m2) eqn:FP; [|reflexivity]. apply from_profile_iff in FP. change (m_ESV m2) with (m_ESV rsp) in FP. change (empty_list m2) with (empty_list rsp). rewrite El; [reflexivity|]. lia. }
  rewrite El2 in CR. cbv zeta in CR.
  assert (Fnd : exists n1, sget (fst an) (c_found (announce_found an m2 c)) = Some n1).
  { unfold announce_found. destruct (announces m2); [|exists nd; exact Nd]. cbn [c_found set_found]. rewrite (dget_dset String.eqb seqb_eq), String.eqb_refl. eauto. }
  destruct Fnd as (n1 & Fnd).
  assert (Kn : forall ip, knows c ip -> knows (announce_found an m2 c) ip).
  { intros ip H. unfold announce_found. destruct (announces m2); [apply knows_set; exact H|exact H]. }
  assert (P : forall cc, c_req cc = c_req c -> c_resp cc = c_resp c -> c_req (post_step m2 cc) = c_req c /\ c_resp (post_step m2 cc) = c_resp (post_step m2 c)).
  { intros cc H1 H2. unfold post_step. rewrite H1, H2. destruct (c_req c) as [r|] eqn:Q; [|split; congruence]. destruct (c_resp c) eqn:Q2; [split; congruence|]. destruct (m_TID r =? m_TID m2); [|split; congruence]. split; reflexivity. }
  assert (AF : c_req (announce_found an m2 c) = c_req c /\ c_resp (announce_found an m2 c) = c_resp c) by (unfold announce_found; destruct (announces m2); split; reflexivity).
  assert (Kp : forall cc ip, knows cc ip -> knows (post_step m2 cc) ip) by (intros cc ip H; unfold knows; rewrite post_found; exact H).
  assert (Fin : rc = Ok tt /\ c_req c2 = c_req c /\ c_resp c2 = c_resp (post_step m2 c) /\ forall ip, knows c ip -> knows c2 ip).
  { destruct (from_profile m2 || (m_ESV m2 =? 0x7E)).
    - rewrite Fnd in CR. assert (c2 = post_step m2 (set_found (sset (fst an) (rec_node m2 n1) (c_found (announce_found an m2 c))) (announce_found an m2 c)) /\ rc = Ok tt) as (-> & ->) by (split; congruence).
      split; [reflexivity|]. split; [apply P; apply AF|]. split; [apply P; apply AF|]. intros ip H. apply Kp, knows_set, Kn. exact H.
    - assert (c2 = post_step m2 (announce_found an m2 c) /\ rc = Ok tt) as (-> & ->) by (split; congruence).
      split; [reflexivity|]. split; [apply P; apply AF|]. split; [apply P; apply AF|]. intros ip H. apply Kp, Kn. exact H. }
  destruct Fin as (-> & Rq & Rs & K3). exists c2, tc2. rewrite <- Es2. split; [|auto].
  exact (arrive_one PS wc tr sc jc an rsp sc2 tc2 Oc Fr Lr NC).
Qed.

(** ** The simulation *)
Definition m_shown (tid : Z) (g : option manswer) : option msg :=
  option_map (fun '(an, (code, a)) => set_from (Some an) (answer_of tid code a)) g.
Record mclirel (Ds : list addr) (t0 : Z) (c : peer) (v : mcli) : Prop := mkmclirel {
  mc_q : quiet (y_os c); mc_r : reliable (y_os c); mc_o : online (y_node c) (y_srv c);
  mc_t : g_tid (ln_mgr (y_node c)) = tid_after t0 (z_num v); mc_n : Z.of_nat (z_num v) <= 65535; mc_b : y_busy c = z_busy v;
  mc_c : exists l, ln_ctl (y_node c) = Some l /\ (forall a, In a Ds -> knows l (fst a)) /\
    (z_busy v = true -> (0 < z_num v)%nat /\ c_resp l = m_shown (tid_after t0 (z_num v)) (z_got v) /\ exists q, c_req l = Some q /\ m_TID q = tid_after t0 (z_num v)) }.
Definition mclisrel (Ds : list addr) (ts : list Z) (cs : list peer) (vs : list mcli) : Prop :=
  length cs = length ts /\ length vs = length ts /\ forall i c v, nth_error cs i = Some c -> nth_error vs i = Some v -> mclirel Ds (nth i ts 0) c v.
Definition m_made (As : list addr) (vs : list mcli) (t : tag) (ac : addr) : Prop :=
  nth_error As (g_cli t) = Some ac /\ exists v, nth_error vs (g_cli t) = Some v /\ (0 < g_num t <= z_num v)%nat.
Definition mreqrel (Ds As : list addr) (ts : list Z) (vs : list mcli) (q : nat * nat * list Z) (r : tag * mcall) : Prop :=
  let '(t, (a, (code, k))) := r in let '(i, d, b) := q in i = g_cli t /\ nth_error Ds d = Some a /\ exists ac s, m_made As vs t ac /\
  next_tid s = tid_after (nth (g_cli t) ts 0) (g_num t) /\ b = wire (as_received s ac (request code k)).
Definition mansrel (Ds As : list addr) (ts : list Z) (vs : list mcli) (q : nat * nat * list Z) (r : tag * manswer) : Prop :=
  let '(t, (a, (code, r))) := r in let '(d, i, b) := q in i = g_cli t /\ nth_error Ds d = Some a /\ exists ac, m_made As vs t ac /\
  let rsp := answer_of (tid_after (nth (g_cli t) ts 0) (g_num t)) code r in good_answer rsp /\ b = wire rsp.
Definition m_grows (vs vs' : list mcli) : Prop := forall i v, nth_error vs i = Some v -> exists v', nth_error vs' i = Some v' /\ (z_num v <= z_num v')%nat.
Lemma m_made_grows As vs vs' t ac : m_grows vs vs' -> m_made As vs t ac -> m_made As vs' t ac.
Proof. intros G (A & v & V & N). split; [exact A|]. destruct (G _ _ V) as (v' & V' & L). exists v'. split; [exact V'|lia]. Qed.
Lemma mreqrel_grows Ds As ts vs vs' : m_grows vs vs' -> forall q r, mreqrel Ds As ts vs q r -> mreqrel Ds As ts vs' q r.
Proof. intros G [[i d] b] (t & a & code & k) (A & B & ac & s & M & H). split; [exact A|]. split; [exact B|]. exists ac, s. split; [exact (m_made_grows _ _ _ _ _ G M)|exact H]. Qed.
Lemma mansrel_grows Ds As ts vs vs' : m_grows vs vs' -> forall q r, mansrel Ds As ts vs q r -> mansrel Ds As ts vs' q r.
Proof. intros G [[d i] b] (t & a & code & k) (A & B & ac & M & H). split; [exact A|]. split; [exact B|]. exists ac. split; [exact (m_made_grows _ _ _ _ _ G M)|exact H]. Qed.
Lemma m_grows_refl vs : m_grows vs vs. Proof. intros i v H. exists v. auto. Qed.
Lemma m_grows_put vs i v v' : nth_error vs i = Some v -> (z_num v <= z_num v')%nat -> m_grows vs (put_nth i v' vs).
Proof.
  intros E L j w W. destruct (Nat.eq_dec j i) as [->|N]; [exists v'; split; [apply nth_put_same, (nth_error_len _ _ _ E)|congruence]|].
  exists w. rewrite nth_put_other by (try exact N; exact (nth_error_len _ _ _ E)). auto.
Qed.
Record msimrel (Ds As : list addr) (ts : list Z) (x : mnet) (r : mref) : Prop := mkmsim {
  ms_ts : Forall (fun t => 0 <= t <= 65535) ts; ms_as : map y_addr (y_clis x) = As; ms_nd : NoDup As;
  ms_ds : map y_addr (y_devs x) = Ds; ms_dd : NoDup Ds; ms_dv : Forall (ready_dev (z_stores r)) (y_devs x);
  ms_st : forall a, z_stores r a <> None -> In a Ds;
  ms_cs : mclisrel Ds ts (y_clis x) (z_clis r);
  ms_rs : Forall2 (mreqrel Ds As ts (z_clis r)) (y_reqs x) (z_reqs r); ms_xs : Forall2 (mansrel Ds As ts (z_clis r)) (y_anss x) (z_anss r) }.

Lemma mclisrel_nth Ds ts cs vs i : mclisrel Ds ts cs vs ->
  match nth_error cs i, nth_error vs i with Some c, Some v => mclirel Ds (nth i ts 0) c v | None, None => True | _, _ => False end.
Proof.
  intros (L1 & L2 & H). destruct (nth_error cs i) eqn:A, (nth_error vs i) eqn:B; [exact (H i _ _ A B)|..|exact Logic.I].
  - apply nth_error_len in A. apply nth_error_None in B. lia.
  - apply nth_error_len in B. apply nth_error_None in A. lia.
Qed.
Lemma mclisrel_put Ds ts cs vs i c v c' v' : mclisrel Ds ts cs vs -> nth_error cs i = Some c -> nth_error vs i = Some v -> mclirel Ds (nth i ts 0) c' v' ->
  mclisrel Ds ts (put_nth i c' cs) (put_nth i v' vs).
Proof.
  intros (L1 & L2 & H) A B R. pose proof (nth_error_len _ _ _ A) as LA. pose proof (nth_error_len _ _ _ B) as LB. split; [rewrite put_nth_length; assumption|]. split; [rewrite put_nth_length; assumption|].
  intros j c0 v0. destruct (Nat.eq_dec j i) as [->|N]; [rewrite !nth_put_same by assumption; congruence|]. rewrite !nth_put_other by assumption. apply H.
Qed.
Lemma mclisrel_put1 Ds ts cs vs i c v c' : mclisrel Ds ts cs vs -> nth_error cs i = Some c -> nth_error vs i = Some v -> mclirel Ds (nth i ts 0) c' v ->
  mclisrel Ds ts (put_nth i c' cs) vs.
Proof.
  intros (L1 & L2 & H) A B R. pose proof (nth_error_len _ _ _ A) as LA. split; [rewrite put_nth_length; assumption|]. split; [assumption|].
  intros j c0 v0. destruct (Nat.eq_dec j i) as [->|N]; [rewrite nth_put_same by assumption; congruence|]. rewrite nth_put_other by assumption. apply H.
Qed.
Lemma m_addrs_put i c c' cs : nth_error cs i = Some c -> y_addr c' = y_addr c -> map y_addr (put_nth i c' cs) = map y_addr cs.
Proof. intros E A. apply map_put; [exact (nth_error_len _ _ _ E)|]. rewrite A. rewrite nth_error_map, E. reflexivity. Qed.
Lemma addr_nth l d a : nth_error (map y_addr l) d = Some a -> exists c, nth_error l d = Some c /\ y_addr c = a.
Proof. rewrite nth_error_map. destruct (nth_error l d) as [c|]; [|discriminate]. intros E. exists c. split; [reflexivity|]. cbn in E. congruence. Qed.
(** One device changes, and its store. *)
Lemma devs_put T ds d v v' St : NoDup (map y_addr ds) -> Forall (ready_dev T) ds -> nth_error ds d = Some v -> y_addr v' = y_addr v ->
  ready_dev (set_store (y_addr v) St T) v' -> Forall (ready_dev (set_store (y_addr v) St T)) (put_nth d v' ds).
Proof.
  intros N F E A R. apply Forall_forall. intros u U. apply In_nth_error in U as (j & U). pose proof (nth_error_len _ _ _ E) as L.
  destruct (Nat.eq_dec j d) as [->|Nj]; [rewrite nth_put_same in U by exact L; assert (u = v') as -> by congruence; exact R|].
  rewrite nth_put_other in U by assumption. rewrite Forall_forall in F. destruct (F u (nth_error_In _ _ U)) as (Q & Re & O & C & S0 & E0 & M).
  split; [exact Q|]. split; [exact Re|]. split; [exact O|]. split; [exact C|]. exists S0. split; [|exact M]. unfold set_store. rewrite aeqb_neq; [exact E0|].
  intros Ea. apply Nj. assert (Nx : nth_error (map y_addr ds) j = nth_error (map y_addr ds) d) by (rewrite !nth_error_map, U, E; cbn; congruence).
  rewrite NoDup_nth_error in N. apply N; [|exact Nx]. rewrite map_length. exact (nth_error_len _ _ _ U).
Qed.

Lemma msim_step (PS : PySet) Ds As ts x r e : msimrel Ds As ts x r -> mevent_ok r e ->
  exists x' o r', mnet_step x e = (x', map (m_returned ts) o) /\ mref_step r e = (r', o) /\ msimrel Ds As ts x' r'.
Proof.
  intros Sm Ok. pose proof Sm as [Ht Ha Hn Hds Hdd Hdv Hst Hc Hr Hx]. destruct x as [ds cs rs xs]. destruct r as [T vs rrs rxs lg ps]. cbn [y_devs y_clis y_reqs y_anss z_stores z_clis z_reqs z_anss z_log z_posts] in *.
  destruct e as [i p code k|j|j|j|j|i]; cbn [mnet_step mref_step].
  - (* post *)
    pose proof (mclisrel_nth _ _ _ _ i Hc) as Hi. destruct (nth_error cs i) as [c|] eqn:Ec, (nth_error vs i) as [v|] eqn:Ev; try contradiction; [|eexists; exists []; eexists; split; [reflexivity|split; [reflexivity|exact Sm]]].
    destruct Ok as ((Co & En & D1 & D2 & Le) & Dp & Nl). cbn [z_clis] in Nl. rewrite Ev in Nl. destruct (dest_addr p) as [an|] eqn:Da; [|contradiction].
    rewrite (mc_b _ _ _ _ Hi). destruct (z_busy v) eqn:Bv; [eexists; exists []; eexists; split; [reflexivity|split; [reflexivity|exact Sm]]|].
    destruct Hi as [Qc Rc Oc Tc Nc Bc (l & Cl & Fn & _)].
    assert (T0 : 0 <= nth i ts 0 <= 65535).
    { assert (Li : (i < length ts)%nat) by (destruct Hc as (L1 & _); apply nth_error_len in Ec; lia). rewrite Forall_forall in Ht. apply Ht. apply nth_In. exact Li. }
    assert (T1 : 0 <= g_tid (ln_mgr (y_node c)) <= 65535) by (rewrite Tc; apply tid_after_range; exact T0).
    assert (Tm : m_TID (request code k) = 0) by (destruct k; reflexivity).
    destruct (ctl_sends2 (y_os c) (y_tr c) (y_node c) (y_srv c) (y_addr c) an p (request code k) l Qc Rc Da Oc Cl T1 Tm En) as (m' & t1 & si & sn & E1 & M1 & R1 & R2).
    unfold post_begin. rewrite Cl, E1.
    assert (Nt : next_tid (y_node c) = tid_after (nth i ts 0) (S (z_num v))) by (unfold next_tid; rewrite Tc; reflexivity).
    set (v' := mkmcli (S (z_num v)) true None). assert (G : m_grows vs (put_nth i v' vs)) by (apply (m_grows_put vs i v v' Ev); cbn; lia).
    eexists. exists []. eexists. split; [reflexivity|]. split; [reflexivity|]. constructor; cbn [y_devs y_clis y_reqs y_anss z_stores z_clis z_reqs z_anss]; try assumption.
    + rewrite (m_addrs_put i c) by (try exact Ec; reflexivity). exact Ha.
    + apply (mclisrel_put Ds ts cs vs i c v _ _ Hc Ec Ev). constructor; try assumption; cbn [y_os y_node y_srv y_busy set_peer z_num z_busy].
      * unfold v'. cbn [z_num]. lia.
      * reflexivity.
      * eexists. split; [reflexivity|]. split; [exact Fn|]. intros _. split; [unfold v'; cbn [z_num]; lia|]. split; [reflexivity|]. exists m'. split; [reflexivity|]. rewrite M1. exact Nt.
    + apply Forall2_app; [exact (F2_impl _ _ _ _ (mreqrel_grows _ _ _ _ _ G) Hr)|]. destruct (T an) as [Sa|] eqn:Ta.
      * assert (In an Ds) as I0 by (apply Hst; rewrite Ta; discriminate). apply In_nth_error in I0 as (d & Ed). pose proof Ed as Ed'. rewrite <- Hds in Ed. destruct (addr_nth _ _ _ Ed) as (u & Eu & Au).
        rewrite (to_peers_sent i _ an si _ sn ds (ltac:(rewrite Hds; exact Hdd)) R1 R2 d u Eu Au).
        constructor; [|constructor]. cbn [g_cli g_num]. split; [reflexivity|]. split; [exact Ed'|]. exists (y_addr c), (y_node c). split; [|split; [exact Nt|reflexivity]].
        split; [cbn [g_cli]; rewrite <- Ha, nth_error_map, Ec; reflexivity|]. exists v'. cbn [g_cli g_num]. split; [apply nth_put_same, (nth_error_len _ _ _ Ev)|cbn; lia].
      * rewrite (to_peers_lost i _ an si _ sn ds R1); [constructor|]. intros I0. apply in_map_iff in I0 as (u & Au & Iu). rewrite Forall_forall in Hdv. destruct (Hdv u Iu) as (_ & _ & _ & _ & S0 & E0 & _). rewrite Au, Ta in E0. discriminate.
    + exact (F2_impl _ _ _ _ (mansrel_grows _ _ _ _ _ G) Hx).
  - (* serve *)
    pose proof (Forall2_nth _ _ _ Hr j) as Hj. cbn [mevent_ok z_reqs z_stores] in Ok. destruct (nth_error rs j) as [[[i d] b]|] eqn:Ej, (nth_error rrs j) as [[t [a [code k]]]|] eqn:Er; try contradiction; [|eexists; exists []; eexists; split; [reflexivity|split; [reflexivity|exact Sm]]].
    destruct Hj as (Ei & Ed & ac & s & Md & Nt & Eb). subst i b. pose proof Md as (Am & v & Ev & Nv).
    pose proof Ed as Ed'. rewrite <- Hds in Ed. destruct (addr_nth _ _ _ Ed) as (u & Eu & Au). rewrite <- Ha in Am. destruct (addr_nth _ _ _ Am) as (c & Ec & Ac). rewrite Ec, Eu, Ac.
    pose proof Hdv as Hdv'. rewrite Forall_forall in Hdv'. destruct (Hdv' u (nth_error_In _ _ Eu)) as (Qd & Rd & Od & Cd & St & ETa & Mi & So). rewrite Au in ETa. rewrite ETa in Ok. rewrite ETa.
    destruct (dev_calls PS (y_os u) (y_tr u) (y_node u) (y_srv u) ac s St code k Qd Rd Od Cd Mi So Ok) as (d1 & td1 & Ar & Od1 & Cd1 & Mi1 & So1 & An). rewrite Ar.
    eexists. exists []. eexists. split; [reflexivity|]. split; [reflexivity|]. constructor; cbn [y_devs y_clis y_reqs y_anss z_stores z_clis z_reqs z_anss]; try assumption.
    + rewrite (m_addrs_put d u) by (try exact Eu; reflexivity). exact Hds.
    + rewrite <- Au. apply (devs_put T ds d u); try assumption; [rewrite Hds; exact Hdd|reflexivity|].
      split; [exact Qd|]. split; [exact Rd|]. split; [exact Od1|]. split; [exact Cd1|]. exists (store_after St code k). split; [unfold set_store; cbn [y_addr set_peer]; rewrite aeqb_refl; reflexivity|]. split; assumption.
    + intros a0. unfold set_store. destruct (addr_eqb a a0) eqn:Q; [|apply Hst]. intros _. apply aeqb_eq in Q. subst a0. exact (nth_error_In _ _ Ed').
    + apply Forall2_drop. exact Hr.
    + apply Forall2_app; [exact Hx|]. destruct (store_reply St code k) as [r0|].
      * destruct An as (Ga & i2 & n2 & Se & Np). rewrite (to_peers_sent d _ ac i2 _ n2 cs (ltac:(rewrite Ha; exact Hn)) Se Np (g_cli t) c Ec Ac).
        constructor; [|constructor]. split; [reflexivity|]. split; [exact Ed'|]. exists ac. split; [exact Md|]. rewrite <- Nt. split; [exact Ga|reflexivity].
      * rewrite (to_peers_empty d _ cs An). constructor.
  - (* answer *)
    pose proof (Forall2_nth _ _ _ Hx j) as Hj. destruct (nth_error xs j) as [[[d i] b]|] eqn:Ej, (nth_error rxs j) as [[t [an [code a]]]|] eqn:Er; try contradiction; [|eexists; exists []; eexists; split; [reflexivity|split; [reflexivity|exact Sm]]].
    destruct Hj as (Ei & Ed & ac & Md & Ga & Eb). subst i b. pose proof Md as (Am & v & Ev & Nv).
    pose proof Ed as Ed'. rewrite <- Hds in Ed. destruct (addr_nth _ _ _ Ed) as (u & Eu & Au). rewrite Eu, Au.
    pose proof (mclisrel_nth _ _ _ _ (g_cli t) Hc) as Hi. rewrite Ev in Hi. destruct (nth_error cs (g_cli t)) as [c|] eqn:Ec; [|contradiction]. rewrite Ev.
    pose proof Hi as [Qc Rc Oc Tc Nc Bc (l & Cl & Fn & Bu)].
    set (t0 := nth (g_cli t) ts 0) in *. set (rsp := answer_of (tid_after t0 (g_num t)) code a) in *.
    destruct (cli_gets2 PS (y_os c) (y_tr c) (y_node c) (y_srv c) an rsp l Qc Oc Cl (Fn an (nth_error_In _ _ Ed')) Ga) as (l' & tc & Ar & Fn' & Rq & Rs). rewrite Ar.
    assert (T0 : 0 <= t0 <= 65535).
    { assert (Li : (g_cli t < length ts)%nat) by (destruct Hc as (L1 & _); apply nth_error_len in Ec; lia). rewrite Forall_forall in Ht. apply Ht. apply nth_In. exact Li. }
    set (hit := z_busy v && (z_num v =? g_num t)%nat && match z_got v with None => true | Some _ => false end).
    set (v' := if hit then mkmcli (z_num v) true (Some (an, (code, a))) else v).
    assert (Vn : z_num v' = z_num v) by (unfold v'; destruct hit; reflexivity).
    assert (Vb : z_busy v' = z_busy v) by (unfold v', hit; destruct (z_busy v) eqn:B1, (_ =? _)%nat, (z_got v); cbn; congruence).
    assert (New : mclirel Ds t0 (set_peer (set_ln_ctl (Some l') (y_node c)) tc (y_busy c) c) v').
    { constructor; try assumption; cbn [y_os y_node y_srv y_busy set_peer]; rewrite ?Vn, ?Vb; try assumption.
      exists l'. split; [reflexivity|]. split; [intros b0 B0; apply Fn', Fn; exact B0|]. intros B. destruct (Bu B) as (Np & Gr & q & Q1 & Q2). split; [exact Np|]. split; [|exists q; split; [rewrite Rq; exact Q1|exact Q2]].
      rewrite Rs. unfold post_step. rewrite Q1, Gr. unfold v', hit. rewrite B. cbn [andb]. destruct (z_got v) as [[an0 [code0 g]]|] eqn:Vg; cbn [m_shown option_map].
      - rewrite andb_false_r. rewrite Vg. rewrite Gr. reflexivity.
      - rewrite andb_true_r. change (m_TID (set_from (Some an) rsp)) with (m_TID rsp). assert (Tr : m_TID rsp = tid_after t0 (g_num t)) by (unfold rsp, answer_of, answer_msg; destruct a as [[[e pp] sss] gg]; reflexivity).
        rewrite Tr, Q2. destruct (Nat.eqb_spec (z_num v) (g_num t)) as [En|Nn].
        + rewrite En, Z.eqb_refl. cbn [z_got option_map c_resp set_post]. subst rsp. reflexivity.
        + destruct (Z.eqb_spec (tid_after t0 (z_num v)) (tid_after t0 (g_num t))) as [Eq|_]; [|rewrite Gr, Vg; reflexivity].
          exfalso. apply Nn. apply (tid_after_inj t0); try assumption; lia. }
    eexists. exists []. eexists. split; [reflexivity|]. split; [reflexivity|].
    assert (G : m_grows vs (if hit then put_nth (g_cli t) (mkmcli (z_num v) true (Some (an, (code, a)))) vs else vs)).
    { destruct hit; [|apply m_grows_refl]. apply (m_grows_put vs _ v _ Ev). cbn. lia. }
    constructor; cbn [y_devs y_clis y_reqs y_anss z_stores z_clis z_reqs z_anss]; fold hit; try assumption.
    + rewrite (m_addrs_put (g_cli t) c) by (try exact Ec; reflexivity). exact Ha.
    + unfold v' in New. destruct hit; [exact (mclisrel_put Ds ts cs vs _ c v _ _ Hc Ec Ev New)|exact (mclisrel_put1 Ds ts cs vs _ c v _ Hc Ec Ev New)].
    + exact (F2_impl _ _ _ _ (mreqrel_grows _ _ _ _ _ G) Hr).
    + apply Forall2_drop. exact (F2_impl _ _ _ _ (mansrel_grows _ _ _ _ _ G) Hx).
  - eexists. exists []. eexists. split; [reflexivity|]. split; [reflexivity|]. constructor; cbn [y_devs y_clis y_reqs y_anss z_stores z_clis z_reqs z_anss]; try assumption. apply Forall2_drop. exact Hr.
  - eexists. exists []. eexists. split; [reflexivity|]. split; [reflexivity|]. constructor; cbn [y_devs y_clis y_reqs y_anss z_stores z_clis z_reqs z_anss]; try assumption. apply Forall2_drop. exact Hx.
  - (* return *)
    pose proof (mclisrel_nth _ _ _ _ i Hc) as Hi. destruct (nth_error cs i) as [c|] eqn:Ec, (nth_error vs i) as [v|] eqn:Ev; try contradiction; [|eexists; exists []; eexists; split; [reflexivity|split; [reflexivity|exact Sm]]].
    rewrite (mc_b _ _ _ _ Hi). destruct (z_busy v) eqn:Bv; [|eexists; exists []; eexists; split; [reflexivity|split; [reflexivity|exact Sm]]].
    destruct Hi as [Qc Rc Oc Tc Nc Bc (l & Cl & Fn & Bu)]. destruct (Bu Bv) as (Np & Gr & q & Q1 & Q2).
    set (v' := mkmcli (z_num v) false None). assert (G : m_grows vs (put_nth i v' vs)) by (apply (m_grows_put vs i v v' Ev); cbn; lia).
    eexists. exists [(mktag i (z_num v), z_got v)]. eexists. split.
    { f_equal. unfold post_end. rewrite Cl, Gr. cbn [map m_returned]. do 2 f_equal. destruct (z_got v) as [[an [code [[[e pp] sss] gg]]]|]; reflexivity. }
    split; [reflexivity|]. constructor; cbn [y_devs y_clis y_reqs y_anss z_stores z_clis z_reqs z_anss]; try assumption.
    + rewrite (m_addrs_put i c) by (try exact Ec; reflexivity). exact Ha.
    + apply (mclisrel_put Ds ts cs vs i c v _ _ Hc Ec Ev). constructor; try assumption; try reflexivity. cbn [y_node set_peer]. exists l. split; [exact Cl|]. split; [exact Fn|]. discriminate.
    + exact (F2_impl _ _ _ _ (mreqrel_grows _ _ _ _ _ G) Hr).
    + exact (F2_impl _ _ _ _ (mansrel_grows _ _ _ _ _ G) Hx).
Qed.

Lemma msim_run (PS : PySet) Ds As ts : forall l x r, msimrel Ds As ts x r -> mrun_ok r l ->
  exists x' o r', mnet_run x l = (x', map (m_returned ts) o) /\ mref_run r l = (r', o) /\ msimrel Ds As ts x' r'.
Proof.
  induction l as [|e l IH]; intros x r Sm Ok.
  - exists x, [], r. auto.
  - destruct Ok as (Oe & Ol). destruct (msim_step PS Ds As ts x r e Sm Oe) as (x1 & o1 & r1 & E1 & F1 & S1). rewrite F1 in Ol.
    destruct (IH x1 r1 S1 Ol) as (x2 & o2 & r2 & E2 & F2 & S2). exists x2, (o1 ++ o2), r2. cbn [mnet_run mref_run]. rewrite E1, E2, F1, F2, map_app. auto.
Qed.
Lemma msim_start T x : multi_ready T x -> msimrel (map y_addr (y_devs x)) (map y_addr (y_clis x)) (multi_tids x) x (mref_start T (length (y_clis x))).
Proof.
  intros (Rc & Rd & Nc & Nd & Dm & Rs & Xs). constructor; try assumption; try reflexivity.
  - unfold multi_tids. rewrite Forall_map. eapply Forall_impl; [|exact Rc]. intros c H. apply H.
  - cbn [mref_start z_clis]. split; [unfold multi_tids; rewrite map_length; reflexivity|]. split; [unfold multi_tids; rewrite map_length, repeat_length; reflexivity|].
    intros i c v Ec Ev. assert (v = mkmcli 0 false None) as -> by (apply nth_error_In in Ev; exact (repeat_spec _ _ _ Ev)).
    rewrite Forall_forall in Rc. destruct (Rc c (nth_error_In _ _ Ec)) as (Q & R & O & L & F & T0 & B). constructor; try assumption.
    + cbn [z_num tid_after]. unfold multi_tids. assert (E : nth_error (map (fun c => g_tid (ln_mgr (y_node c))) (y_clis x)) i = Some (g_tid (ln_mgr (y_node c)))) by (rewrite nth_error_map, Ec; reflexivity).
      symmetry. apply nth_error_nth. exact E.
    + cbn. lia.
    + destruct (ln_ctl (y_node c)) as [l|] eqn:El; [|contradiction]. exists l. split; [reflexivity|]. split; [|discriminate].
      intros a I0. apply in_map_iff in I0 as (u & <- & Iu). destruct (F u Iu) as (l0 & nd & L0 & F0). exists nd. assert (l0 = l) as <- by congruence. exact F0.
  - rewrite Rs. constructor.
  - rewrite Xs. constructor.
Qed.

(** C97: the network behaves as the reference. *)
Lemma L_C97_as_stores_partial : forall (PS : PySet) T x l, multi_ready T x -> mrun_ok (mref_start T (length (y_clis x))) l ->
  exists x' o r', mnet_run x l = (x', map (m_returned (multi_tids x)) o) /\ mref_run (mref_start T (length (y_clis x))) l = (r', o) /\
  map y_addr (y_devs x') = map y_addr (y_devs x) /\
  forall v, In v (y_devs x') -> exists St, z_stores r' (y_addr v) = Some St /\ mirrors (y_node v) St.
Proof.
  intros PS T x l Re Ok. destruct (msim_run PS _ _ _ l x _ (msim_start T x Re) Ok) as (x' & o & r' & E & F & Sm).
  exists x', o, r'. split; [exact E|]. split; [exact F|]. split; [exact (ms_ds _ _ _ _ _ Sm)|]. intros v I0. pose proof (ms_dv _ _ _ _ _ Sm) as D. rewrite Forall_forall in D.
  destruct (D v I0) as (_ & _ & _ & _ & St & E1 & E2 & _). eauto.
Qed.

(** ** The order of the calls *)
Definition m_placed (T : addr -> option store) (lg : list (tag * mcall)) (t : tag) (an : addr) (code : Z) (a : answer) : Prop :=
  exists l1 k l2 St, lg = l1 ++ (t, (an, (code, k))) :: l2 /\ T an = Some St /\ store_reply (store_run St (calls_to an l1)) code k = Some a.
Lemma m_placed_app T lg m t an code a : m_placed T lg t an code a -> m_placed T (lg ++ m) t an code a.
Proof. intros (l1 & k & l2 & St & -> & H). exists l1, k, (l2 ++ m), St. split; [rewrite <- app_assoc; reflexivity|exact H]. Qed.
Lemma calls_to_snoc a lg t b code k : calls_to a (lg ++ [(t, (b, (code, k)))]) = calls_to a lg ++ if addr_eqb a b then [(code, k)] else [].
Proof. unfold calls_to. rewrite filter_app, map_app. cbn [filter fst snd]. destruct (addr_eqb a b); reflexivity. Qed.

Record minv (T : addr -> option store) (r : mref) (o : list (tag * option manswer)) : Prop := mkminv {
  mi_st : forall a, z_stores r a = option_map (fun St => store_run St (calls_to a (z_log r))) (T a);
  mi_ps : forall t c, In (t, c) (z_posts r) -> exists v, nth_error (z_clis r) (g_cli t) = Some v /\ (0 < g_num t <= z_num v)%nat;
  mi_np : NoDup (map fst (z_posts r));
  mi_nl : NoDup (map fst (z_log r ++ z_reqs r));
  mi_in : incl (z_log r ++ z_reqs r) (z_posts r);
  mi_an : forall t an code a, In (t, (an, (code, a))) (z_anss r) -> m_placed T (z_log r) t an code a;
  mi_go : forall i v an code a, nth_error (z_clis r) i = Some v -> z_got v = Some (an, (code, a)) -> m_placed T (z_log r) (mktag i (z_num v)) an code a;
  mi_ou : forall t an code a, In (t, Some (an, (code, a))) o -> m_placed T (z_log r) t an code a }.

Lemma minv_step T r o e r' o' : minv T r o -> mref_step r e = (r', o') ->
  minv T r' (o ++ o') /\ (exists ps, z_posts r' = z_posts r ++ ps) /\ (exists lg, z_log r' = z_log r ++ lg).
Proof.
  intros I. pose proof I as [Ist Ips Inp Inl Iin Ian Igo Iou]. destruct r as [Tn vs rs xs lg ps]. cbn [z_stores z_clis z_reqs z_anss z_log z_posts] in *.
  assert (Stay : forall r0, r0 = mkmref Tn vs rs xs lg ps -> minv T r0 (o ++ []) /\ (exists p, z_posts r0 = ps ++ p) /\ (exists g, z_log r0 = lg ++ g)).
  { intros r0 ->. rewrite app_nil_r. split; [exact I|]. split; exists []; rewrite app_nil_r; reflexivity. }
  destruct e as [i p code k|j|j|j|j|i]; cbn [mref_step]; intros E.
  - destruct (nth_error vs i) as [v|] eqn:Ev; [|injection E as <- <-; apply Stay; reflexivity]. destruct (dest_addr p) as [an|] eqn:Da; [|injection E as <- <-; apply Stay; reflexivity].
    destruct (z_busy v) eqn:Bv; [injection E as <- <-; apply Stay; reflexivity|]. injection E as <- <-. pose proof (nth_error_len _ _ _ Ev) as Lv.
    set (t := mktag i (S (z_num v))). assert (Fresh : ~ In t (map fst ps)).
    { intros H. apply in_map_iff in H as ((t1 & c) & Et & H). cbn in Et. subst t1. destruct (Ips _ _ H) as (v1 & V1 & N). cbn [t g_cli g_num] in *. assert (v1 = v) by congruence. subst v1. lia. }
    rewrite app_nil_r. split; [|split; [eexists; reflexivity|exists []; rewrite app_nil_r; reflexivity]].
    assert (Sub : incl (match Tn an with Some _ => [(t, (an, (code, k)))] | None => [] end) [(t, (an, (code, k)))]) by (destruct (Tn an); [apply incl_refl|intros y []]).
    constructor; cbn [z_stores z_clis z_reqs z_anss z_log z_posts]; try assumption.
    + intros t1 c H. apply in_app_or in H as [H|[H|[]]].
      * destruct (Ips _ _ H) as (v1 & V1 & N). destruct (Nat.eq_dec (g_cli t1) i) as [Ei|Ni]; [rewrite Ei in *; rewrite nth_put_same by exact Lv; eexists; split; [reflexivity|]; assert (v1 = v) by congruence; subst v1; cbn [z_num]; lia|].
        rewrite nth_put_other by assumption. eauto.
      * assert (t1 = t) as -> by congruence. cbn [t g_cli g_num]. rewrite nth_put_same by exact Lv. eexists. split; [reflexivity|]. cbn [z_num]. lia.
    + rewrite map_app. apply (Permutation_NoDup (Permutation_cons_append _ _)). constructor; assumption.
    + destruct (Tn an); [|rewrite app_nil_r; exact Inl].
      rewrite app_assoc, map_app. apply (Permutation_NoDup (Permutation_cons_append _ _)). constructor; [|exact Inl]. intros H. apply Fresh. apply in_map_iff in H as (y & Ey & H). assert (Fy : fst y = t) by exact Ey. rewrite <- Fy. apply in_map. apply Iin. exact H.
    + intros y H. rewrite app_assoc in H. apply in_app_or in H as [H|H]; apply in_or_app; [left; apply Iin; exact H|right; exact (Sub _ H)].
    + intros j w b c a W G. destruct (Nat.eq_dec j i) as [->|Nj]; [rewrite nth_put_same in W by exact Lv; assert (w = mkmcli (S (z_num v)) true None) by congruence; subst w; discriminate|]. rewrite nth_put_other in W by assumption. exact (Igo _ _ _ _ _ W G).
  - destruct (nth_error rs j) as [[t [an [code k]]]|] eqn:Ej; [|injection E as <- <-; apply Stay; reflexivity]. destruct (Tn an) as [Sa|] eqn:Ta; [|injection E as <- <-; apply Stay; reflexivity].
    injection E as <- <-. destruct (drop_split _ _ _ Ej) as (l1 & l2 & Ers & Edr). subst rs.
    assert (Pm : Permutation (lg ++ l1 ++ (t, (an, (code, k))) :: l2) ((lg ++ [(t, (an, (code, k)))]) ++ l1 ++ l2)).
    { rewrite <- app_assoc. apply Permutation_app_head. cbn [app]. symmetry. apply Permutation_middle. }
    pose proof (Ist an) as Is. rewrite Ta in Is. destruct (T an) as [S0|] eqn:T0; [|discriminate]. cbn [option_map] in Is. assert (Sa = store_run S0 (calls_to an lg)) as -> by congruence.
    rewrite app_nil_r. split; [|split; [exists []; rewrite app_nil_r; reflexivity|eexists; reflexivity]]. constructor; cbn [z_stores z_clis z_reqs z_anss z_log z_posts]; try assumption.
    + intros a. rewrite calls_to_snoc. unfold set_store. destruct (addr_eqb an a) eqn:Q.
      * apply aeqb_eq in Q. subst a. rewrite T0, aeqb_refl. cbn [option_map]. rewrite store_run_snoc. reflexivity.
      * rewrite (Ist a). replace (addr_eqb a an) with false; [rewrite app_nil_r; reflexivity|]. symmetry. apply aeqb_neq. intros ->. rewrite aeqb_refl in Q. discriminate.
    + rewrite Edr. eapply Permutation_NoDup; [|exact Inl]. apply Permutation_map. exact Pm.
    + rewrite Edr. intros y H. apply Iin. eapply Permutation_in; [symmetry; exact Pm|exact H].
    + intros t1 b c a H. apply in_app_or in H as [H|H]; [apply m_placed_app; apply Ian; exact H|]. destruct (store_reply _ code k) as [r0|] eqn:Sr; [|contradiction]. destruct H as [H|[]]. assert (t1 = t /\ b = an /\ c = code /\ a = r0) as (-> & -> & -> & ->) by (repeat split; congruence).
      exists lg, k, [], S0. split; [reflexivity|]. split; [exact T0|exact Sr].
    + intros i w b c a W G. apply m_placed_app. exact (Igo _ _ _ _ _ W G).
    + intros t1 b c a H. apply m_placed_app. exact (Iou _ _ _ _ H).
  - destruct (nth_error xs j) as [[t [an [code a]]]|] eqn:Ej; [|injection E as <- <-; apply Stay; reflexivity]. destruct (nth_error vs (g_cli t)) as [v|] eqn:Ev; [|injection E as <- <-; apply Stay; reflexivity]. injection E as <- <-. pose proof (nth_error_len _ _ _ Ev) as Lv.
    rewrite app_nil_r. split; [|split; exists []; rewrite app_nil_r; reflexivity]. set (hit := z_busy v && (z_num v =? g_num t)%nat && match z_got v with None => true | Some _ => false end).
    assert (Hh : hit = true -> z_num v = g_num t) by (unfold hit; intros H; apply andb_prop in H as (H & _); apply andb_prop in H as (_ & H); apply Nat.eqb_eq; exact H).
    constructor; cbn [z_stores z_clis z_reqs z_anss z_log z_posts]; try assumption.
    + intros t1 c H. destruct (Ips _ _ H) as (v1 & V1 & N). destruct hit; [|eauto]. destruct (Nat.eq_dec (g_cli t1) (g_cli t)) as [Ei|Ni]; [rewrite Ei in *; rewrite nth_put_same by exact Lv; eexists; split; [reflexivity|]; assert (v1 = v) by congruence; subst v1; exact N|].
      rewrite nth_put_other by assumption. eauto.
    + intros t1 b0 c b H. apply Ian. exact (drop_incl j xs _ H).
    + intros i w b0 c b W G. destruct hit; [|exact (Igo _ _ _ _ _ W G)]. destruct (Nat.eq_dec i (g_cli t)) as [->|Ni]; [|rewrite nth_put_other in W by assumption; exact (Igo _ _ _ _ _ W G)].
      rewrite nth_put_same in W by exact Lv. pose proof (f_equal (fun o => match o with Some x => x | None => w end) W) as Ew. cbv beta iota in Ew. subst w. cbn [z_num z_got] in *. injection G as -> -> ->.
      rewrite (Hh eq_refl). replace (mktag (g_cli t) (g_num t)) with t by (destruct t; reflexivity). apply Ian. apply nth_error_In in Ej. exact Ej.
  - injection E as <- <-. rewrite app_nil_r. split; [|split; exists []; rewrite app_nil_r; reflexivity]. constructor; cbn [z_stores z_clis z_reqs z_anss z_log z_posts]; try assumption.
    + destruct (nth_error rs j) as [y|] eqn:Ej; [destruct (drop_split _ _ _ Ej) as (l1 & l2 & -> & ->)|apply nth_error_None in Ej; unfold drop_nth; rewrite firstn_all2, skipn_all2, app_nil_r by lia; exact Inl].
      rewrite app_assoc in Inl |- *. rewrite map_app in *. cbn [map] in Inl. exact (NoDup_remove_1 _ _ _ Inl).
    + intros y H. apply Iin. apply in_app_or in H as [H|H]; apply in_or_app; [now left|right; exact (drop_incl _ _ _ H)].
  - injection E as <- <-. rewrite app_nil_r. split; [|split; exists []; rewrite app_nil_r; reflexivity]. constructor; cbn [z_stores z_clis z_reqs z_anss z_log z_posts]; try assumption.
    intros t1 b0 c b H. apply Ian. exact (drop_incl j xs _ H).
  - destruct (nth_error vs i) as [v|] eqn:Ev; [|injection E as <- <-; apply Stay; reflexivity]. destruct (z_busy v) eqn:Bv; [|injection E as <- <-; apply Stay; reflexivity]. injection E as <- <-. pose proof (nth_error_len _ _ _ Ev) as Lv.
    split; [|split; exists []; rewrite app_nil_r; reflexivity]. constructor; cbn [z_stores z_clis z_reqs z_anss z_log z_posts]; try assumption.
    + intros t1 c H. destruct (Ips _ _ H) as (v1 & V1 & N). destruct (Nat.eq_dec (g_cli t1) i) as [Ei|Ni]; [rewrite Ei in *; rewrite nth_put_same by exact Lv; eexists; split; [reflexivity|]; assert (v1 = v) by congruence; subst v1; exact N|].
      rewrite nth_put_other by assumption. eauto.
    + intros j w b0 c b W G. destruct (Nat.eq_dec j i) as [->|Ni]; [|rewrite nth_put_other in W by assumption; exact (Igo _ _ _ _ _ W G)]. rewrite nth_put_same in W by exact Lv. assert (w = mkmcli (z_num v) false None) by congruence. subst w. discriminate.
    + intros t b c a H. apply in_app_or in H as [H|[H|[]]]; [exact (Iou _ _ _ _ H)|]. assert (t = mktag i (z_num v)) as -> by congruence. apply (Igo i v b c a Ev). congruence.
Qed.
Lemma minv_run T l : forall r o r' o', minv T r o -> mref_run r l = (r', o') ->
  minv T r' (o ++ o') /\ (exists ps, z_posts r' = z_posts r ++ ps) /\ (exists lg, z_log r' = z_log r ++ lg).
Proof.
  induction l as [|e l IH]; intros r o r' o' I E; cbn [mref_run] in E.
  - injection E as <- <-. rewrite app_nil_r. split; [exact I|]. split; exists []; rewrite app_nil_r; reflexivity.
  - destruct (mref_step r e) as [r1 o1] eqn:E1. destruct (mref_run r1 l) as [r2 o2] eqn:E2. injection E as <- <-.
    destruct (minv_step T r o e r1 o1 I E1) as (I1 & (p1 & P1) & (g1 & G1)). destruct (IH r1 _ r2 o2 I1 E2) as (I2 & (p2 & P2) & (g2 & G2)).
    rewrite app_assoc. split; [exact I2|]. split; [exists (p1 ++ p2); rewrite P2, P1, app_assoc; reflexivity|exists (g1 ++ g2); rewrite G2, G1, app_assoc; reflexivity].
Qed.
Lemma minv_start T n : minv T (mref_start T n) [].
Proof.
  constructor; cbn; try (now constructor); try contradiction; [intros a; destruct (T a); reflexivity|intros x []|].
  intros i v an code a E. assert (v = mkmcli 0 false None) as -> by (apply nth_error_In in E; exact (repeat_spec _ _ _ E)). discriminate.
Qed.

(** C97: in the reference, the calls are treated one after the other, each by the device it was made to. *)
Lemma L_C97_one_order : forall T n l r o, mref_run (mref_start T n) l = (r, o) ->
  (forall a, z_stores r a = option_map (fun St => store_run St (calls_to a (z_log r))) (T a)) /\
  NoDup (map fst (z_posts r)) /\ NoDup (map fst (z_log r)) /\ incl (z_log r) (z_posts r) /\
  forall t an code a, In (t, Some (an, (code, a))) o ->
    exists l1 k l2 St, z_log r = l1 ++ (t, (an, (code, k))) :: l2 /\ T an = Some St /\ store_reply (store_run St (calls_to an l1)) code k = Some a.
Proof.
  intros T n l r o E. destruct (minv_run T l _ _ _ _ (minv_start T n) E) as ([Ist Ips Inp Inl Iin Ian Igo Iou] & _). cbn [app] in Iou.
  split; [exact Ist|]. split; [exact Inp|]. split; [rewrite map_app in Inl; exact (nodup_left _ _ Inl)|]. split; [intros y H; apply Iin; apply in_or_app; now left|exact Iou].
Qed.
(** A call that returned an answer comes before every call made later, to the same or another device. *)
Lemma L_C97_real_time : forall T n l1 l2 r1 o1 r2 o2, mref_run (mref_start T n) l1 = (r1, o1) -> mref_run r1 l2 = (r2, o2) ->
  exists ps, z_posts r2 = z_posts r1 ++ ps /\
  forall t an code a t' c', In (t, Some (an, (code, a))) o1 -> In (t', c') ps -> In (t', c') (z_log r2) ->
  exists k la lb lc, z_log r2 = la ++ (t, (an, (code, k))) :: lb ++ (t', c') :: lc.
Proof.
  intros T n l1 l2 r1 o1 r2 o2 E1 E2. destruct (minv_run T l1 _ _ _ _ (minv_start T n) E1) as (I1 & _). destruct (minv_run T l2 _ _ _ _ I1 E2) as (I2 & (ps & P) & (lg & G)).
  exists ps. split; [exact P|]. intros t an code a t' c' H1 H2 H3. destruct (mi_ou _ _ _ I1 t an code a H1) as (la & k & lb & S0 & L & _).
  rewrite G in H3. apply in_app_or in H3 as [H3|H3].
  - exfalso. pose proof (mi_np _ _ _ I2) as N. rewrite P, map_app in N. apply (in_map fst) in H2. cbn [fst] in H2.
    assert (H4 : In t' (map fst (z_posts r1))) by (apply (in_map fst) with (x := (t', c')); apply (mi_in _ _ _ I1); apply in_or_app; now left).
    clear -N H2 H4. induction (map fst (z_posts r1)) as [|y l IH]; [contradiction|]. cbn [app] in N. apply NoDup_cons_iff in N as (N1 & N2). destruct H4 as [->|H4]; [apply N1; apply in_or_app; now right|exact (IH N2 H4)].
  - apply in_split in H3 as (g1 & g2 & ->). exists k, la, (lb ++ g1), g2. rewrite G, L. rewrite <- !app_assoc. reflexivity.
Qed.

(** C97: a call returns only a message of the device it was made to. *)
Lemma posts_made l : forall r r' o, mref_run r l = (r', o) -> forall t c, In (t, c) (z_posts r') ->
  In (t, c) (z_posts r) \/ exists p code k, In (MPost (g_cli t) p code k) l /\ dest_addr p = Some (fst c) /\ snd c = (code, k).
Proof.
  induction l as [|e l IH]; intros r r' o E t c H; cbn [mref_run] in E; [left; congruence|].
  destruct (mref_step r e) as [r1 o1] eqn:E1. destruct (mref_run r1 l) as [r2 o2] eqn:E2. injection E as <- <-.
  destruct (IH r1 r2 o2 E2 t c H) as [H1|(p & code & k & H1 & H2)]; [|right; exists p, code, k; split; [now right|exact H2]].
  destruct r as [Tn vs rs xs lg ps]. cbn [z_posts].
  assert (Keep : z_posts r1 = ps -> In (t, c) ps \/ exists p code k, In (MPost (g_cli t) p code k) (e :: l) /\ dest_addr p = Some (fst c) /\ snd c = (code, k)) by (intros Q; left; congruence).
  destruct e as [i p code k|j|j|j|j|i]; cbn [mref_step] in E1.
  - destruct (nth_error vs i) as [v|]; [|apply Keep; injection E1 as <- _; reflexivity]. destruct (dest_addr p) as [an|] eqn:Da; [|apply Keep; injection E1 as <- _; reflexivity].
    destruct (z_busy v); [apply Keep; injection E1 as <- _; reflexivity|]. injection E1 as <- _. cbn [z_posts] in H1. apply in_app_or in H1 as [H1|[H1|[]]]; [now left|]. right.
    assert (t = mktag i (S (z_num v)) /\ c = (an, (code, k))) as (-> & ->) by (split; congruence). exists p, code, k. split; [now left|]. split; [exact Da|reflexivity].
  - apply Keep. destruct (nth_error rs j) as [[t0 [a [code k]]]|]; [destruct (Tn a)|]; injection E1 as <- _; reflexivity.
  - apply Keep. destruct (nth_error xs j) as [[t0 a]|]; [destruct (nth_error vs (g_cli t0))|]; injection E1 as <- _; reflexivity.
  - apply Keep. injection E1 as <- _. reflexivity.
  - apply Keep. injection E1 as <- _. reflexivity.
  - apply Keep. destruct (nth_error vs i) as [v|]; [destruct (z_busy v)|]; injection E1 as <- _; reflexivity.
Qed.
Lemma L_C97_own_device_partial : forall (PS : PySet) T x l x' o, multi_ready T x -> mrun_ok (mref_start T (length (y_clis x))) l -> mnet_run x l = (x', o) ->
  forall i m, In (i, Some m) o -> exists p code k, In (MPost i p code k) l /\ dest_addr p = m_from m /\ m_SEOJ m = code.
Proof.
  intros PS T x l x' o Re Ok Ru i m H. destruct (L_C97_as_stores_partial PS T x l Re Ok) as (x2 & o2 & r2 & E & F & _). rewrite E in Ru. injection Ru as -> <-.
  apply in_map_iff in H as ((t & [(an & code & a)|]) & Eq & H); [|destruct t; discriminate].
  destruct (L_C97_one_order T _ l r2 o2 F) as (_ & _ & _ & Inc & Pl). destruct (Pl t an code a H) as (l1 & k & l2 & St & Lg & _).
  assert (P : In (t, (an, (code, k))) (z_posts r2)) by (apply Inc; rewrite Lg; apply in_or_app; right; now left).
  destruct (posts_made l _ _ _ F t _ P) as [[]|(p & c0 & k0 & I0 & D0 & S0)]. cbn [fst snd] in D0, S0. destruct t as [ti tn]. destruct a as [[[e pp] ss] gs]. cbn [m_returned option_map g_cli] in *.
  assert (ti = i) as -> by congruence. assert (Em : mkmsg (tid_after (nth i (multi_tids x) 0) tn) code 0x0EF001 e pp ss gs (Some an) None = m) by congruence. subst m.
  exists p, c0, k0. split; [exact I0|]. split; [exact D0|]. cbn [m_SEOJ]. congruence.
Qed.
