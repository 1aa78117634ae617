(** Lemmas for C82. *)
From Verif Require Import PyBase BytesM EsvM MsgM PropM ObjM DbData DbM NodeM LocalM CtrlM
  SpecWire SpecObj SpecReq SpecDb SpecNode SpecProf SpecLocal SpecSrv SpecCtrl SpecEnd SpecSess SpecMany DictP BytesP WireP CodecP ObjP MapP ReqP DbP NodeP ProfP LocalP AnswerP SrvP CtrlP EndP SessP BenchP.
From Verif Require Import SpecReq.
Require Import ZifyBool Permutation.

(** ** Lists *)
Lemma put_nth_length {A} i (a : A) l : (i < length l)%nat -> length (put_nth i a l) = length l.
Proof. intros H. unfold put_nth. rewrite app_length, firstn_length. cbn [length]. rewrite skipn_length. lia. Qed.
Lemma nth_put_same {A} i (a : A) l : (i < length l)%nat -> nth_error (put_nth i a l) i = Some a.
Proof. intros H. unfold put_nth. rewrite nth_error_app2; rewrite firstn_length; [|lia]. replace (i - Nat.min i (length l))%nat with 0%nat by lia. reflexivity. Qed.
Lemma nth_put_other {A} i j (a : A) l : (i < length l)%nat -> j <> i -> nth_error (put_nth i a l) j = nth_error l j.
Proof.
  intros H N. unfold put_nth. rewrite <- (firstn_skipn i l) at 3. destruct (Nat.lt_ge_cases j i).
  - rewrite !nth_error_app1 by (rewrite firstn_length; lia). reflexivity.
  - rewrite !nth_error_app2 by (rewrite firstn_length; lia). rewrite firstn_length. replace (Nat.min i (length l)) with i by lia.
    destruct (j - i)%nat as [|d] eqn:E; [lia|]. cbn [nth_error]. clear -H. revert l H d. induction i as [|i IH]; intros [|x l] H d; cbn in *; try lia; [reflexivity|]. apply IH. lia.
Qed.
Lemma nth_error_len {A} (l : list A) i a : nth_error l i = Some a -> (i < length l)%nat.
Proof. intros H. apply nth_error_Some. congruence. Qed.
Lemma map_put {A B} (f : A -> B) i a l : (i < length l)%nat -> nth_error (map f l) i = Some (f a) -> map f (put_nth i a l) = map f l.
Proof.
  intros H E. unfold put_nth. rewrite map_app. cbn [map]. rewrite <- firstn_map, <- skipn_map. revert E. generalize (map f l) (f a). clear.
  intros l b. revert i. induction l as [|x l IH]; intros [|i] E; cbn in *; try discriminate; [congruence|]. f_equal. now apply IH.
Qed.
Lemma Forall2_nth {A B} (R : A -> B -> Prop) l m : Forall2 R l m -> forall j,
  match nth_error l j, nth_error m j with Some a, Some b => R a b | None, None => True | _, _ => False end.
Proof. induction 1 as [|a b l m H F IH]; intros [|j]; [exact Logic.I..|exact H|exact (IH j)]. Qed.
Lemma Forall2_drop {A B} (R : A -> B -> Prop) l m : Forall2 R l m -> forall j, Forall2 R (drop_nth j l) (drop_nth j m).
Proof.
  induction 1 as [|a b l m H F IH]; intros [|j]; [constructor..|exact F|]. unfold drop_nth in *. cbn [firstn skipn app]. constructor; [exact H|]. exact (IH j).
Qed.

(** ** TIDs *)
Lemma tid_after_eq t n : 0 <= t <= 65535 -> tid_after t (S n) = (t + Z.of_nat n) mod 65535 + 1.
Proof.
  intros T. induction n as [|n IH].
  - cbn [tid_after]. rewrite Z.add_0_r. reflexivity.
  - change (tid_after t (S (S n))) with (tid_after t (S n) mod 65535 + 1). rewrite IH. f_equal. rewrite Zplus_mod_idemp_l. f_equal. lia.
Qed.
Lemma tid_after_inj t a b : 0 <= t <= 65535 -> (0 < a)%nat -> (0 < b)%nat -> Z.of_nat a <= 65535 -> Z.of_nat b <= 65535 -> tid_after t a = tid_after t b -> a = b.
Proof.
  intros T A B La Lb E. destruct a as [|a]; [lia|]. destruct b as [|b]; [lia|]. rewrite !tid_after_eq in E by exact T.
  pose proof (Z.div_mod (t + Z.of_nat a) 65535). pose proof (Z.div_mod (t + Z.of_nat b) 65535).
  assert ((t + Z.of_nat a) mod 65535 = (t + Z.of_nat b) mod 65535) by lia.
  assert (Z.of_nat a - Z.of_nat b = 65535 * ((t + Z.of_nat a) / 65535 - (t + Z.of_nat b) / 65535)) by lia.
  assert ((t + Z.of_nat a) / 65535 - (t + Z.of_nat b) / 65535 = 0) by lia. lia.
Qed.
Lemma tid_after_range t n : 0 <= t <= 65535 -> 0 <= tid_after t n <= 65535.
Proof. intros T. destruct n; [exact T|]. rewrite tid_after_eq by exact T. pose proof (Z.mod_pos_bound (t + Z.of_nat n) 65535). lia. Qed.

(** ** The datagrams that reach the controllers *)
Lemma to_clis_gen evs a0 bs l k : NoDup (map k_addr l) -> reach a0 evs = bs -> (forall a, a <> a0 -> reach a evs = []) ->
  forall i c, nth_error l i = Some c -> k_addr c = a0 ->
  concat (map (fun '(i, c) => map (pair i) (reach (k_addr c) evs)) (combine (seq k (length l)) l)) = map (pair (k + i)%nat) bs.
Proof.
  intros N R O. revert k. induction l as [|x l IH]; intros k i c E A; [destruct i; discriminate|]. cbn [map] in N. apply NoDup_cons_iff in N as (N1 & N2).
  cbn [length seq combine map concat]. destruct i as [|i]; cbn [nth_error] in E.
  - assert (x = c) by congruence. subst x. rewrite A, R, Nat.add_0_r.
    assert (Z : concat (map (fun '(i, c) => map (pair i) (reach (k_addr c) evs)) (combine (seq (S k) (length l)) l)) = []).
    { clear -N1 O A. subst a0. generalize (S k). induction l as [|y l IH]; intros j; [reflexivity|]. cbn [length seq combine map concat In] in *. rewrite (O (k_addr y)) by (intros E; apply N1; left; exact E). cbn [map app]. apply IH. intros E. apply N1. right. exact E. }
    rewrite Z. apply app_nil_r.
  - rewrite (O (k_addr x)), (IH N2 (S k) i c E A); [cbn [map app]; f_equal; f_equal; lia|]. intros Ex. apply N1. rewrite Ex, <- A. apply in_map. apply nth_error_In in E. exact E.
Qed.
Lemma reach_none a evs : sent evs = [] -> reach a evs = [].
Proof. intros E. unfold reach. rewrite E. reflexivity. Qed.
Lemma reach_other a0 a evs i b n : sent evs = [(i, b, a0, Ok n)] -> a <> a0 -> reach a evs = [].
Proof.
  intros E N. unfold reach. rewrite E. cbn [filter map]. cbn [snd fst]. destruct (addr_eqb a0 a) eqn:Q; [|rewrite andb_false_r; reflexivity].
  exfalso. apply N. unfold addr_eqb in Q. apply andb_prop in Q as (Q1 & Q2). apply String.eqb_eq in Q1. apply Z.eqb_eq in Q2. destruct a, a0. cbn in *. congruence.
Qed.

(** ** The device treats one call *)
Definition good_answer (rsp : msg) : Prop :=
  frame_msg rsp /\ (length (wire rsp) <= 1024)%nat /\ m_ESV rsp <> 0x73 /\ is_request (m_ESV rsp) = false /\ m_DEOJ rsp = 0x0EF001 /\ (m_ESV rsp = 0x72 -> empty_list rsp = false).
Definition answer_of (tid code : Z) (a : answer) : msg := answer_msg tid code a.
Lemma reply_not_request t k e ps ss gs : reply t k = Some (e, ps, ss, gs) -> is_request e = false.
Proof.
  destruct k; cbn [reply]; repeat match goal with |- context [if ?b then _ else _] => destruct b end; intros H; try discriminate; (assert (X := f_equal (option_map (fun '(e, _, _, _) => e)) H)); cbn in X; injection X as <-; reflexivity.
Qed.

Lemma dev_calls (PS : PySet) wd tr sd jd ac sc St code k : quiet wd -> reliable wd -> online sd jd -> ln_ctl sd = None ->
  mirrors sd St -> store_ok St -> call_ok St code k ->
  exists sd' td, arrive wd tr sd jd ac [wire (as_received sc ac (request code k))] = (sd', td) /\
  online sd' jd /\ ln_ctl sd' = None /\ mirrors sd' (store_after St code k) /\ store_ok (store_after St code k) /\
  match store_reply St code k with
  | Some a => good_answer (answer_of (next_tid sc) code a) /\ exists i n, sent (since tr td) = [(i, wire (answer_of (next_tid sc) code a), ac, Ok n)] /\ 0 < n
  | None => sent (since tr td) = []
  end.
Proof.
  intros Qd Rd Od Cd M So (Co & En & D1 & D2 & Le & Cr).
  pose proof (request_frame sc ac code k Co En D1 D2) as Fq. pose proof (next_tid_range sc) as Ti.
  set (q := as_received sc ac (request code k)) in *.
  assert (Dm : m_DEOJ q = code) by (destruct k; reflexivity).
  assert (Lq : (length (wire q) <= 1024)%nat) by (rewrite wire_len in *; destruct k; exact Le).
  assert (Hq : received_from ac q) by (exists (set_from None q); split; [exact Fq|reflexivity]).
  destruct (node_received wd tr sd q) as [[sd1 td1] rd] eqn:NR.
  destruct (node_received_spec wd tr sd ac q Hq) as (s2 & evs & r2 & E2 & LSp & _). rewrite NR in E2. injection E2 as <- -> <-.
  specialize (LSp (or_introl Cd)). unfold local_spec in LSp. rewrite Dm in LSp.
  unfold store_reply, store_after. pose proof (M code) as Mc. destruct (St code) as [t|] eqn:Sc.
  - destruct (zget code (ln_objs sd)) as [o|] eqn:Zo; [|contradiction]. destruct Cr as (Ra & Kn).
    assert (To : table_ok t) by (intros c l; exact (So code t c l Sc)).
    assert (So' : store_ok (fun i => if i =? code then Some (after t k) else St i)).
    { intros i t0 c l. destruct (i =? code); [|apply So]. intros E. assert (t0 = after t k) as -> by congruence. apply (after_ok t k code To En D1 D2). }
    destruct (obj_call sc ac code o t k Mc Kn) as (o' & Ob & H'). fold q in Ob.
    assert (Mi : mirrors (put_obj code o' sd) (fun i => if i =? code then Some (after t k) else St i)).
    { intros i. rewrite zget_put. destruct (Z.eqb_spec i code) as [->|Ni]; [exact H'|exact (M i)]. }
    destruct LSp as (oe & snds2 & -> & Foe & [(_ & _ & NQ & _)|LSp]); [contradiction|]. rewrite Ob in LSp.
    destruct (reply t k) as [[[[e ps] ss] gs]|] eqn:Rp.
    + cbn [option_map answer_msg] in Ob, LSp.
      destruct (reply_frame (next_tid sc) code t k e ps ss gs Ti Co To Rp En D1 D2) as (Fr & N73). destruct Ra as (La & Ea).
      pose proof (reply_not_request _ _ _ _ _ _ Rp) as Nr.
      unfold answer_of. cbn [answer_msg]. set (rsp := mkmsg (next_tid sc) code 0x0EF001 e ps ss gs None None) in *.
      destruct LSp as (_ & g2 & -> & G2 & t2 & St2 & LSp).
      destruct LSp as [(_ & Tri2 & Fo2 & AR)|(NE & _)]; [|exfalso; apply NE; apply Fr].
      unfold stamped in St2. change (m_TID q) with (next_tid sc) in St2.
      assert (Tr : 0 < next_tid sc) by (unfold next_tid; pose proof (Z.mod_pos_bound (g_tid (ln_mgr sc)) 65535); lia).
      replace (next_tid sc =? 0) with false in St2 by lia. destruct St2 as (-> & ->).
      change (m_ESV rsp) with e in Tri2. replace (e =? 0x73) with false in Tri2 by lia. cbv zeta in Tri2.
      assert (Wr : wire (set_TID (next_tid sc) (set_SEOJ (source sd rsp) rsp)) = wire rsp) by (unfold source; rewrite Cd; reflexivity).
      rewrite Wr in Tri2. pose proof (tries_reliable wd _ _ _ _ (wire_nonempty rsp) Rd Tri2 Fo2) as TR.
      destruct (open_ifs sd) as [|i2 ifs2] eqn:Oi2; [exfalso; apply (proj1 Od); exact Oi2|]. destruct TR as (n2 & -> & Np2).
      assert (rd = Ok tt) as ->.
      { destruct rd as [[]|x]; [reflexivity|]. exfalso. destruct AR as (y & [<-|[]] & Y). discriminate. }
      exists (set_ln_mgr (ln_mgr sd) (put_obj code o' sd)), (tr ++ oe ++ map ev_of [(i2, wire rsp, ac, Ok n2)]).
      split; [change (wire q) with (wire (set_from None q)); apply arrive_one; [exact Od|exact Fq|exact Lq|exact NR]|].
      split; [exact Od|]. split; [exact Cd|]. split; [exact Mi|]. split; [exact So'|]. split.
      * split; [exact Fr|]. split; [rewrite wire_len in *; exact La|]. split; [exact N73|]. split; [exact Nr|]. split; [reflexivity|exact Ea].
      * exists i2, n2. split; [|exact Np2]. rewrite since_app, sent_app, (obj_events_sent _ _ _ Foe), sent_evs. reflexivity.
    + cbn [option_map] in LSp. destruct LSp as (_ & g2 & -> & G2 & -> & -> & ->).
      exists (set_ln_mgr (ln_mgr sd) (put_obj code o' sd)), (tr ++ oe ++ map ev_of []).
      split; [change (wire q) with (wire (set_from None q)); apply arrive_one; [exact Od|exact Fq|exact Lq|exact NR]|].
      split; [exact Od|]. split; [exact Cd|]. split; [exact Mi|]. split; [exact So'|].
      rewrite since_app, sent_app, (obj_events_sent _ _ _ Foe). reflexivity.
  - destruct (zget code (ln_objs sd)) as [o|] eqn:Zo; [contradiction|]. destruct LSp as (-> & -> & ->).
    exists sd, (tr ++ []). split; [change (wire q) with (wire (set_from None q)); apply arrive_one; [exact Od|exact Fq|exact Lq|exact NR]|].
    split; [exact Od|]. split; [exact Cd|]. split; [exact M|]. split; [exact So|]. rewrite since_app. reflexivity.
Qed.

(** ** The answer arrives at the controller *)
Lemma cli_gets (PS : PySet) wc tr sc jc an rsp c nd : quiet wc -> online sc jc -> ln_ctl sc = Some c -> sget (fst an) (c_found c) = Some nd ->
  good_answer rsp ->
  exists c' nd' tc, arrive wc tr sc jc an [wire rsp] = (set_ln_ctl (Some c') sc, tc) /\ sget (fst an) (c_found c') = Some nd' /\
  c_req c' = c_req c /\ c_resp c' = c_resp (post_step (set_from (Some an) rsp) c).
Proof.
  intros Qc Oc C Nd (Fr & Lr & N73 & NRq & Dj & El). set (m2 := set_from (Some an) rsp).
  assert (Hr : received_from an m2) by (exists rsp; split; [exact Fr|reflexivity]).
  change (is_request (m_ESV m2) = false) in NRq.
  destruct (node_received wc tr sc m2) as [[sc2 tc2] rc] eqn:NC.
  destruct (step_of PS wc tr sc c an m2 sc2 tc2 rc Qc C Hr NC) as (c2 & C2 & _ & CR). specialize (CR NRq).
  pose proof (ctl_node_received PS wc tr sc c an m2 sc2 tc2 rc C Hr NC) as CN. rewrite NRq in CN. destruct CN as (c3 & CR3 & Es2).
  assert (c3 = c2) by congruence. subst c3. clear CR3.
  rewrite (ctl_response_eq wc tr c an m2 Qc Hr NRq) in CR.
  change (m_DEOJ m2) with (m_DEOJ rsp) in CR. rewrite Dj in CR. change (negb (0x0EF001 =? 0x0EF001)) with false in CR. rewrite andb_false_r in CR.
  assert (El2 : from_profile m2 && empty_list m2 = false).
  { destruct (from_profile m2) eqn:FP; [|reflexivity]. apply from_profile_iff in FP. change (m_ESV m2) with (m_ESV rsp) in FP. change (empty_list m2) with (empty_list rsp). rewrite El; [reflexivity|]. lia. }
  rewrite El2 in CR. cbv zeta in CR.
  assert (Fnd : exists n1, sget (fst an) (c_found (announce_found an m2 c)) = Some n1).
  { unfold announce_found. destruct (announces m2); [|exists nd; exact Nd]. cbn [c_found set_found]. rewrite (dget_dset String.eqb seqb_eq), String.eqb_refl. eauto. }
  destruct Fnd as (n1 & Fnd).
  assert (P : forall cc, c_req cc = c_req c -> c_resp cc = c_resp c -> c_req (post_step m2 cc) = c_req c /\ c_resp (post_step m2 cc) = c_resp (post_step m2 c)).
  { intros cc H1 H2. unfold post_step. rewrite H1, H2. destruct (c_req c) as [r|] eqn:Q; [|split; congruence]. destruct (c_resp c) eqn:Q2; [split; congruence|]. destruct (m_TID r =? m_TID m2); [|split; congruence]. split; reflexivity. }
  assert (AF : c_req (announce_found an m2 c) = c_req c /\ c_resp (announce_found an m2 c) = c_resp c) by (unfold announce_found; destruct (announces m2); split; reflexivity).
  assert (Fin : rc = Ok tt /\ c_req c2 = c_req c /\ c_resp c2 = c_resp (post_step m2 c) /\ exists n3, sget (fst an) (c_found c2) = Some n3).
  { destruct (from_profile m2 || (m_ESV m2 =? 0x7E)).
    - rewrite Fnd in CR. assert (c2 = post_step m2 (set_found (sset (fst an) (rec_node m2 n1) (c_found (announce_found an m2 c))) (announce_found an m2 c)) /\ rc = Ok tt) as (-> & ->) by (split; congruence).
      split; [reflexivity|]. split; [apply P; apply AF|]. split; [apply P; apply AF|]. rewrite post_found. cbn [c_found set_found]. rewrite (dget_dset String.eqb seqb_eq), String.eqb_refl. eauto.
    - assert (c2 = post_step m2 (announce_found an m2 c) /\ rc = Ok tt) as (-> & ->) by (split; congruence).
      split; [reflexivity|]. split; [apply P; apply AF|]. split; [apply P; apply AF|]. rewrite post_found. eauto. }
  destruct Fin as (-> & Rq & Rs & n3 & N3). exists c2, n3, tc2. rewrite <- Es2. split; [|auto].
  exact (arrive_one PS wc tr sc jc an rsp sc2 tc2 Oc Fr Lr NC).
Qed.

(** ** The simulation *)
Definition shown_as (an : addr) (tid : Z) (g : option (Z * answer)) : option msg :=
  option_map (fun '(code, a) => set_from (Some an) (answer_of tid code a)) g.
Record clirel (an : addr) (t0 : Z) (c : cli) (v : rcli) : Prop := mkclirel {
  cr_q : quiet (k_os c); cr_r : reliable (k_os c); cr_d : dest_addr (k_dest c) = Some an; cr_o : online (k_node c) (k_srv c);
  cr_t : g_tid (ln_mgr (k_node c)) = tid_after t0 (v_num v); cr_n : Z.of_nat (v_num v) <= 65535; cr_b : k_busy c = v_busy v;
  cr_c : exists l nd, ln_ctl (k_node c) = Some l /\ sget (fst an) (c_found l) = Some nd /\
    (v_busy v = true -> (0 < v_num v)%nat /\ c_resp l = shown_as an (tid_after t0 (v_num v)) (v_got v) /\ exists q, c_req l = Some q /\ m_TID q = tid_after t0 (v_num v)) }.
Definition clisrel (an : addr) (ts : list Z) (cs : list cli) (vs : list rcli) : Prop :=
  length cs = length ts /\ length vs = length ts /\ forall i c v, nth_error cs i = Some c -> nth_error vs i = Some v -> clirel an (nth i ts 0) c v.
(** The call with tag [t] was made. *)
Definition made (As : list addr) (vs : list rcli) (t : tag) (ac : addr) : Prop :=
  nth_error As (g_cli t) = Some ac /\ exists v, nth_error vs (g_cli t) = Some v /\ (0 < g_num t <= v_num v)%nat.
Definition reqrel (As : list addr) (ts : list Z) (vs : list rcli) (q : nat * list Z) (r : tag * (Z * call)) : Prop :=
  let '(t, (code, k)) := r in fst q = g_cli t /\ exists ac s, made As vs t ac /\
  next_tid s = tid_after (nth (g_cli t) ts 0) (g_num t) /\ snd q = wire (as_received s ac (request code k)).
Definition ansrel (As : list addr) (ts : list Z) (vs : list rcli) (q : nat * list Z) (r : tag * (Z * answer)) : Prop :=
  let '(t, (code, a)) := r in fst q = g_cli t /\ exists ac, made As vs t ac /\
  let rsp := answer_of (tid_after (nth (g_cli t) ts 0) (g_num t)) code a in good_answer rsp /\ snd q = wire rsp.
Definition grows (vs vs' : list rcli) : Prop := forall i v, nth_error vs i = Some v -> exists v', nth_error vs' i = Some v' /\ (v_num v <= v_num v')%nat.
Lemma made_grows As vs vs' t ac : grows vs vs' -> made As vs t ac -> made As vs' t ac.
Proof. intros G (A & v & V & N). split; [exact A|]. destruct (G _ _ V) as (v' & V' & L). exists v'. split; [exact V'|lia]. Qed.
Lemma reqrel_grows As ts vs vs' : grows vs vs' -> forall q r, reqrel As ts vs q r -> reqrel As ts vs' q r.
Proof. intros G q (t & code & k) (A & ac & s & M & H). split; [exact A|]. exists ac, s. split; [exact (made_grows _ _ _ _ _ G M)|exact H]. Qed.
Lemma ansrel_grows As ts vs vs' : grows vs vs' -> forall q r, ansrel As ts vs q r -> ansrel As ts vs' q r.
Proof. intros G q (t & code & a) (A & ac & M & H). split; [exact A|]. exists ac. split; [exact (made_grows _ _ _ _ _ G M)|exact H]. Qed.
Lemma F2_impl {A B} (P Q : A -> B -> Prop) l m : (forall a b, P a b -> Q a b) -> Forall2 P l m -> Forall2 Q l m.
Proof. intros H. induction 1; constructor; auto. Qed.
Lemma grows_refl vs : grows vs vs. Proof. intros i v H. exists v. auto. Qed.
Lemma grows_put vs i v v' : nth_error vs i = Some v -> (v_num v <= v_num v')%nat -> grows vs (put_nth i v' vs).
Proof.
  intros E L j w W. destruct (Nat.eq_dec j i) as [->|N]; [exists v'; split; [apply nth_put_same, (nth_error_len _ _ _ E)|congruence]|].
  exists w. rewrite nth_put_other by (try exact N; exact (nth_error_len _ _ _ E)). auto.
Qed.

Record simrel (jd : nat) (an : addr) (As : list addr) (ts : list Z) (x : net) (r : rnet) : Prop := mksim {
  sr_ts : Forall (fun t => 0 <= t <= 65535) ts; sr_as : map k_addr (w_clis x) = As; sr_nd : NoDup As;
  sr_cs : clisrel an ts (w_clis x) (v_clis r);
  sr_rs : Forall2 (reqrel As ts (v_clis r)) (w_reqs x) (v_reqs r); sr_xs : Forall2 (ansrel As ts (v_clis r)) (w_anss x) (v_anss r);
  sr_od : online (w_dev x) jd; sr_cd : ln_ctl (w_dev x) = None; sr_mi : mirrors (w_dev x) (v_store r); sr_so : store_ok (v_store r) }.

Lemma clisrel_nth an ts cs vs i : clisrel an ts cs vs ->
  match nth_error cs i, nth_error vs i with Some c, Some v => clirel an (nth i ts 0) c v | None, None => True | _, _ => False end.
Proof.
  intros (L1 & L2 & H). destruct (nth_error cs i) eqn:A, (nth_error vs i) eqn:B; [exact (H i _ _ A B)|..|exact Logic.I].
  - apply nth_error_len in A. apply nth_error_None in B. lia.
  - apply nth_error_len in B. apply nth_error_None in A. lia.
Qed.
Lemma clisrel_put an ts cs vs i c v c' v' : clisrel an ts cs vs -> nth_error cs i = Some c -> nth_error vs i = Some v -> clirel an (nth i ts 0) c' v' ->
  clisrel an ts (put_nth i c' cs) (put_nth i v' vs).
Proof.
  intros (L1 & L2 & H) A B R. pose proof (nth_error_len _ _ _ A) as LA. pose proof (nth_error_len _ _ _ B) as LB. split; [rewrite put_nth_length; assumption|]. split; [rewrite put_nth_length; assumption|].
  intros j c0 v0. destruct (Nat.eq_dec j i) as [->|N]; [rewrite !nth_put_same by assumption; congruence|]. rewrite !nth_put_other by assumption. apply H.
Qed.
Lemma clisrel_put1 an ts cs vs i c v c' : clisrel an ts cs vs -> nth_error cs i = Some c -> nth_error vs i = Some v -> clirel an (nth i ts 0) c' v ->
  clisrel an ts (put_nth i c' cs) vs.
Proof.
  intros (L1 & L2 & H) A B R. pose proof (nth_error_len _ _ _ A) as LA. split; [rewrite put_nth_length; assumption|]. split; [assumption|].
  intros j c0 v0. destruct (Nat.eq_dec j i) as [->|N]; [rewrite nth_put_same by assumption; congruence|]. rewrite nth_put_other by assumption. apply H.
Qed.
Lemma addrs_put i c c' cs : nth_error cs i = Some c -> k_addr c' = k_addr c -> map k_addr (put_nth i c' cs) = map k_addr cs.
Proof. intros E A. apply map_put; [exact (nth_error_len _ _ _ E)|]. rewrite A. rewrite nth_error_map, E. reflexivity. Qed.

Lemma sim_step (PS : PySet) wd jd an As ts x r e : quiet wd -> reliable wd -> simrel jd an As ts x r -> event_ok r e ->
  exists x' o r', net_step wd jd an x e = (x', map (as_returned an ts) o) /\ ref_step r e = (r', o) /\ simrel jd an As ts x' r'.
Proof.
  intros Qd Rd Sm Ok. pose proof Sm as [Ht Ha Hn Hc Hr Hx Ho Hd Hm Hs]. destruct x as [d td cs rs xs]. destruct r as [St vs rrs rxs lg ps]. cbn [w_dev w_dtr w_clis w_reqs w_anss v_store v_clis v_reqs v_anss v_log v_posts] in *.
  destruct e as [i code k|j|j|j|j|i]; cbn [net_step ref_step].
  - (* post *)
    pose proof (clisrel_nth _ _ _ _ i Hc) as Hi. destruct (nth_error cs i) as [c|] eqn:Ec, (nth_error vs i) as [v|] eqn:Ev; try contradiction; [|eexists; exists []; eexists; split; [reflexivity|split; [reflexivity|exact Sm]]].
    rewrite (cr_b _ _ _ _ Hi). destruct (v_busy v) eqn:Bv; [eexists; exists []; eexists; split; [reflexivity|split; [reflexivity|exact Sm]]|].
    destruct Hi as [Qc Rc Da Oc Tc Nc Bc (l & nd & Cl & Fn & _)]. destruct Ok as ((Co & En & D1 & D2 & Le) & Nl). cbn [v_clis] in Nl. rewrite Ev in Nl.
    assert (T0 : 0 <= nth i ts 0 <= 65535).
    { assert (Li : (i < length ts)%nat) by (destruct Hc as (L1 & _); apply nth_error_len in Ec; lia). rewrite Forall_forall in Ht. apply Ht. apply nth_In. exact Li. }
    assert (T1 : 0 <= g_tid (ln_mgr (k_node c)) <= 65535) by (rewrite Tc; apply tid_after_range; exact T0).
    assert (Tm : m_TID (request code k) = 0) by (destruct k; reflexivity).
    destruct (ctl_sends (k_os c) (k_tr c) (k_node c) (k_srv c) (k_addr c) an (k_dest c) (request code k) l Qc Rc Da Oc Cl T1 Tm En) as (m' & t1 & E1 & M1 & R1).
    unfold post_begin. rewrite Cl, E1, R1.
    assert (Nt : next_tid (k_node c) = tid_after (nth i ts 0) (S (v_num v))) by (unfold next_tid; rewrite Tc; reflexivity).
    set (v' := mkrcli (S (v_num v)) true None). assert (G : grows vs (put_nth i v' vs)) by (apply (grows_put vs i v v' Ev); cbn; lia).
    eexists. exists []. eexists. split; [reflexivity|]. split; [reflexivity|]. constructor; cbn [w_dev w_dtr w_clis w_reqs w_anss v_store v_clis v_reqs v_anss]; try assumption.
    + rewrite (addrs_put i c) by (try exact Ec; reflexivity). exact Ha.
    + apply (clisrel_put an ts cs vs i c v _ _ Hc Ec Ev). constructor; try assumption; cbn [k_os k_dest k_node k_srv k_busy set_cli v_num v_busy].
      * unfold v'. cbn [v_num]. lia.
      * reflexivity.
      * do 2 eexists. split; [reflexivity|]. split; [exact Fn|]. intros _. split; [unfold v'; cbn [v_num]; lia|]. split; [reflexivity|]. exists m'. split; [reflexivity|]. rewrite M1. exact Nt.
    + apply Forall2_app; [exact (F2_impl _ _ _ _ (reqrel_grows _ _ _ _ G) Hr)|]. constructor; [|constructor]. cbn [fst snd g_cli g_num]. split; [reflexivity|]. exists (k_addr c), (k_node c). split; [|split; [exact Nt|reflexivity]].
      split; [cbn [g_cli]; rewrite <- Ha, nth_error_map, Ec; reflexivity|]. exists v'. cbn [g_cli g_num]. split; [apply nth_put_same, (nth_error_len _ _ _ Ev)|cbn; lia].
    + exact (F2_impl _ _ _ _ (ansrel_grows _ _ _ _ G) Hx).
  - (* serve *)
    pose proof (Forall2_nth _ _ _ Hr j) as Hj. cbn [event_ok v_reqs v_store] in Ok. destruct (nth_error rs j) as [[i b]|] eqn:Ej, (nth_error rrs j) as [[t [code k]]|] eqn:Er; try contradiction; [|eexists; exists []; eexists; split; [reflexivity|split; [reflexivity|exact Sm]]].
    destruct Hj as (Ei & ac & s & Md & Nt & Eb). cbn [fst snd] in Ei, Eb. subst i b. pose proof Md as (Am & v & Ev & Nv).
    assert (Ec : exists c, nth_error cs (g_cli t) = Some c /\ k_addr c = ac).
    { rewrite <- Ha, nth_error_map in Am. destruct (nth_error cs (g_cli t)) as [c|]; [|discriminate]. exists c. split; [reflexivity|]. cbn in Am. congruence. }
    destruct Ec as (c & Ec & Ac). rewrite Ec, Ac.
    destruct (dev_calls PS wd td d jd ac s St code k Qd Rd Ho Hd Hm Hs Ok) as (d1 & td1 & Ar & Od1 & Cd1 & Mi1 & So1 & An). rewrite Ar.
    eexists. exists []. eexists. split; [reflexivity|]. split; [reflexivity|]. constructor; cbn [w_dev w_dtr w_clis w_reqs w_anss v_store v_clis v_reqs v_anss]; try assumption.
    + apply Forall2_drop. exact Hr.
    + apply Forall2_app; [exact Hx|]. unfold to_clis. destruct (store_reply St code k) as [a|].
      * destruct An as (Ga & i2 & n2 & Se & Np). rewrite (to_clis_gen (since td td1) ac [wire (answer_of (next_tid s) code a)] cs 0) with (i := g_cli t) (c := c);
          [|rewrite Ha; exact Hn|exact (reach_one _ _ _ _ _ Se Np)|intros a0 Na; exact (reach_other _ _ _ _ _ _ Se Na)|exact Ec|exact Ac].
        constructor; [|constructor]. split; [reflexivity|]. exists ac. split; [exact Md|]. rewrite <- Nt. split; [exact Ga|reflexivity].
      * rewrite (to_clis_gen (since td td1) ac [] cs 0) with (i := g_cli t) (c := c); [constructor|rewrite Ha; exact Hn|exact (reach_none _ _ An)|intros a0 _; exact (reach_none _ _ An)|exact Ec|exact Ac].
  - (* answer *)
    pose proof (Forall2_nth _ _ _ Hx j) as Hj. destruct (nth_error xs j) as [[i b]|] eqn:Ej, (nth_error rxs j) as [[t [code a]]|] eqn:Er; try contradiction; [|eexists; exists []; eexists; split; [reflexivity|split; [reflexivity|exact Sm]]].
    destruct Hj as (Ei & ac & Md & Ga & Eb). cbn [fst snd] in Ei, Eb. subst i b. pose proof Md as (Am & v & Ev & Nv).
    pose proof (clisrel_nth _ _ _ _ (g_cli t) Hc) as Hi. rewrite Ev in Hi. destruct (nth_error cs (g_cli t)) as [c|] eqn:Ec; [|contradiction]. rewrite Ev.
    pose proof Hi as [Qc Rc Da Oc Tc Nc Bc (l & nd & Cl & Fn & Bu)].
    set (t0 := nth (g_cli t) ts 0) in *. set (rsp := answer_of (tid_after t0 (g_num t)) code a) in *.
    destruct (cli_gets PS (k_os c) (k_tr c) (k_node c) (k_srv c) an rsp l nd Qc Oc Cl Fn Ga) as (l' & nd' & tc & Ar & Fn' & Rq & Rs). rewrite Ar.
    assert (T0 : 0 <= t0 <= 65535).
    { assert (Li : (g_cli t < length ts)%nat) by (destruct Hc as (L1 & _); apply nth_error_len in Ec; lia). rewrite Forall_forall in Ht. apply Ht. apply nth_In. exact Li. }
    set (hit := v_busy v && (v_num v =? g_num t)%nat && match v_got v with None => true | Some _ => false end).
    set (v' := if hit then mkrcli (v_num v) true (Some (code, a)) else v).
    assert (Vn : v_num v' = v_num v) by (unfold v'; destruct hit; reflexivity).
    assert (Vb : v_busy v' = v_busy v) by (unfold v', hit; destruct (v_busy v) eqn:B1, (_ =? _)%nat, (v_got v); cbn; congruence).
    assert (New : clirel an t0 (set_cli (set_ln_ctl (Some l') (k_node c)) tc (k_busy c) c) v').
    { constructor; try assumption; cbn [k_os k_dest k_node k_srv k_busy set_cli]; rewrite ?Vn, ?Vb; try assumption.
      exists l', nd'. split; [reflexivity|]. split; [exact Fn'|]. intros B. destruct (Bu B) as (Np & Gr & q & Q1 & Q2). split; [exact Np|]. split; [|exists q; split; [rewrite Rq; exact Q1|exact Q2]].
      rewrite Rs. unfold post_step. rewrite Q1, Gr. unfold v', hit. rewrite B. cbn [andb]. destruct (v_got v) as [g|] eqn:Vg; cbn [shown_as option_map].
      - rewrite andb_false_r. rewrite Vg. rewrite Gr. reflexivity.
      - rewrite andb_true_r. change (m_TID (set_from (Some an) rsp)) with (m_TID rsp). assert (Tr : m_TID rsp = tid_after t0 (g_num t)) by (unfold rsp, answer_of, answer_msg; destruct a as [[[e pp] sss] gg]; reflexivity).
        rewrite Tr, Q2. destruct (Nat.eqb_spec (v_num v) (g_num t)) as [En|Nn].
        + rewrite En, Z.eqb_refl. cbn [v_got option_map c_resp set_post]. subst rsp. reflexivity.
        + destruct (Z.eqb_spec (tid_after t0 (v_num v)) (tid_after t0 (g_num t))) as [Eq|_]; [|rewrite Gr, Vg; reflexivity].
          exfalso. apply Nn. apply (tid_after_inj t0); try assumption; lia. }
    eexists. exists []. eexists. split; [reflexivity|]. split; [reflexivity|].
    assert (G : grows vs (if hit then put_nth (g_cli t) (mkrcli (v_num v) true (Some (code, a))) vs else vs)).
    { destruct hit; [|apply grows_refl]. apply (grows_put vs _ v _ Ev). cbn. lia. }
    constructor; cbn [w_dev w_dtr w_clis w_reqs w_anss v_store v_clis v_reqs v_anss]; fold hit; try assumption.
    + rewrite (addrs_put (g_cli t) c) by (try exact Ec; reflexivity). exact Ha.
    + unfold v' in New. destruct hit; [exact (clisrel_put an ts cs vs _ c v _ _ Hc Ec Ev New)|exact (clisrel_put1 an ts cs vs _ c v _ Hc Ec Ev New)].
    + exact (F2_impl _ _ _ _ (reqrel_grows _ _ _ _ G) Hr).
    + apply Forall2_drop. exact (F2_impl _ _ _ _ (ansrel_grows _ _ _ _ G) Hx).
  - eexists. exists []. eexists. split; [reflexivity|]. split; [reflexivity|]. constructor; cbn [w_dev w_dtr w_clis w_reqs w_anss v_store v_clis v_reqs v_anss]; try assumption. apply Forall2_drop. exact Hr.
  - eexists. exists []. eexists. split; [reflexivity|]. split; [reflexivity|]. constructor; cbn [w_dev w_dtr w_clis w_reqs w_anss v_store v_clis v_reqs v_anss]; try assumption. apply Forall2_drop. exact Hx.
  - (* return *)
    pose proof (clisrel_nth _ _ _ _ i Hc) as Hi. destruct (nth_error cs i) as [c|] eqn:Ec, (nth_error vs i) as [v|] eqn:Ev; try contradiction; [|eexists; exists []; eexists; split; [reflexivity|split; [reflexivity|exact Sm]]].
    rewrite (cr_b _ _ _ _ Hi). destruct (v_busy v) eqn:Bv; [|eexists; exists []; eexists; split; [reflexivity|split; [reflexivity|exact Sm]]].
    destruct Hi as [Qc Rc Da Oc Tc Nc Bc (l & nd & Cl & Fn & Bu)]. destruct (Bu Bv) as (Np & Gr & q & Q1 & Q2).
    set (v' := mkrcli (v_num v) false None). assert (G : grows vs (put_nth i v' vs)) by (apply (grows_put vs i v v' Ev); cbn; lia).
    eexists. exists [(mktag i (v_num v), v_got v)]. eexists. split.
    { f_equal. unfold post_end. rewrite Cl, Gr. cbn [map as_returned]. do 2 f_equal. destruct (v_got v) as [[code [[[e pp] sss] gg]]|]; reflexivity. }
    split; [reflexivity|]. constructor; cbn [w_dev w_dtr w_clis w_reqs w_anss v_store v_clis v_reqs v_anss]; try assumption.
    + rewrite (addrs_put i c) by (try exact Ec; reflexivity). exact Ha.
    + apply (clisrel_put an ts cs vs i c v _ _ Hc Ec Ev). constructor; try assumption; try reflexivity. cbn [k_node set_cli]. exists l, nd. split; [exact Cl|]. split; [exact Fn|]. discriminate.
    + exact (F2_impl _ _ _ _ (reqrel_grows _ _ _ _ G) Hr).
    + exact (F2_impl _ _ _ _ (ansrel_grows _ _ _ _ G) Hx).
Qed.

Lemma sim_run (PS : PySet) wd jd an As ts : quiet wd -> reliable wd -> forall l x r, simrel jd an As ts x r -> run_ok r l ->
  exists x' o r', net_run wd jd an x l = (x', map (as_returned an ts) o) /\ ref_run r l = (r', o) /\ simrel jd an As ts x' r'.
Proof.
  intros Qd Rd l. induction l as [|e l IH]; intros x r Sm Ok.
  - exists x, [], r. auto.
  - destruct Ok as (Oe & Ol). destruct (sim_step PS wd jd an As ts x r e Qd Rd Sm Oe) as (x1 & o1 & r1 & E1 & F1 & S1). rewrite F1 in Ol.
    destruct (IH x1 r1 S1 Ol) as (x2 & o2 & r2 & E2 & F2 & S2). exists x2, (o1 ++ o2), r2. cbn [net_run ref_run]. rewrite E1, E2, F1, F2, map_app. auto.
Qed.
Lemma sim_start jd an St x : all_ready jd an St x -> simrel jd an (map k_addr (w_clis x)) (start_tids x) x (ref_start St (length (w_clis x))).
Proof.
  intros (Rc & Nd & Rs & Xs & Od & Cd & Mi & So). constructor; try assumption; try reflexivity.
  - unfold start_tids. rewrite Forall_map. eapply Forall_impl; [|exact Rc]. intros c H. apply H.
  - cbn [ref_start v_clis]. split; [unfold start_tids; rewrite map_length; reflexivity|]. split; [unfold start_tids; rewrite map_length, repeat_length; reflexivity|].
    intros i c v Ec Ev. assert (v = mkrcli 0 false None) as -> by (apply nth_error_In in Ev; exact (repeat_spec _ _ _ Ev)).
    rewrite Forall_forall in Rc. destruct (Rc c (nth_error_In _ _ Ec)) as (Q & R & D & O & (l & nd & L1 & L2) & T & B). constructor; try assumption.
    + cbn [v_num tid_after]. unfold start_tids. assert (E : nth_error (map (fun c => g_tid (ln_mgr (k_node c))) (w_clis x)) i = Some (g_tid (ln_mgr (k_node c)))) by (rewrite nth_error_map, Ec; reflexivity).
      symmetry. apply nth_error_nth. exact E.
    + cbn. lia.
    + exists l, nd. split; [exact L1|]. split; [exact L2|]. discriminate.
  - rewrite Rs. constructor.
  - rewrite Xs. constructor.
Qed.

(** C82: the network behaves as the reference. *)
Lemma L_C82_as_store_partial : forall (PS : PySet) wd jd an St x l,
  quiet wd -> reliable wd -> all_ready jd an St x -> run_ok (ref_start St (length (w_clis x))) l ->
  exists x' o r', net_run wd jd an x l = (x', map (as_returned an (start_tids x)) o) /\
  ref_run (ref_start St (length (w_clis x))) l = (r', o) /\ mirrors (w_dev x') (v_store r').
Proof.
  intros PS wd jd an St x l Qd Rd Re Ok. destruct (sim_run PS wd jd an _ _ Qd Rd l x _ (sim_start jd an St x Re) Ok) as (x' & o & r' & E & F & Sm).
  exists x', o, r'. split; [exact E|]. split; [exact F|]. exact (sr_mi _ _ _ _ _ _ Sm).
Qed.

(** ** The order of the calls *)
Definition placed (St : store) (lg : list (tag * (Z * call))) (t : tag) (code : Z) (a : answer) : Prop :=
  exists l1 k l2, lg = l1 ++ (t, (code, k)) :: l2 /\ store_reply (store_run St (map snd l1)) code k = Some a.
Lemma placed_app St lg m t code a : placed St lg t code a -> placed St (lg ++ m) t code a.
Proof. intros (l1 & k & l2 & -> & H). exists l1, k, (l2 ++ m). split; [rewrite <- app_assoc; reflexivity|exact H]. Qed.
Lemma drop_split {A} j (l : list A) a : nth_error l j = Some a -> exists l1 l2, l = l1 ++ a :: l2 /\ drop_nth j l = l1 ++ l2.
Proof.
  revert l. induction j as [|j IH]; intros [|x l] E; try discriminate; cbn in E.
  - exists [], l. assert (x = a) as -> by congruence. split; reflexivity.
  - destruct (IH l E) as (l1 & l2 & -> & D). exists (x :: l1), l2. split; [reflexivity|]. unfold drop_nth in *. cbn [firstn skipn app]. f_equal. exact D.
Qed.
Lemma drop_incl {A} j (l : list A) : incl (drop_nth j l) l.
Proof. intros x H. unfold drop_nth in H. apply in_app_or in H as [H|H]; [rewrite <- (firstn_skipn j l); apply in_or_app; now left|]. rewrite <- (firstn_skipn (S j) l). apply in_or_app. now right. Qed.
Lemma drop_nodup {A} j (l : list A) : NoDup l -> NoDup (drop_nth j l).
Proof.
  intros N. destruct (nth_error l j) as [a|] eqn:E; [destruct (drop_split j l a E) as (l1 & l2 & -> & ->); exact (NoDup_remove_1 _ _ _ N)|].
  apply nth_error_None in E. unfold drop_nth. rewrite firstn_all2, skipn_all2 by lia. rewrite app_nil_r. exact N.
Qed.
Lemma nodup_left {A} (l m : list A) : NoDup (l ++ m) -> NoDup l.
Proof. induction l as [|x l IH]; intros N; [constructor|]. cbn [app] in N. apply NoDup_cons_iff in N as (N1 & N2). constructor; [intros H; apply N1; apply in_or_app; now left|exact (IH N2)]. Qed.
Lemma map_drop {A B} (f : A -> B) j l : map f (drop_nth j l) = drop_nth j (map f l).
Proof. unfold drop_nth. rewrite map_app, firstn_map, skipn_map. reflexivity. Qed.

Record inv (St : store) (r : rnet) (o : list (tag * option (Z * answer))) : Prop := mkinv {
  iv_st : v_store r = store_run St (map snd (v_log r));
  iv_ps : forall t c, In (t, c) (v_posts r) -> exists v, nth_error (v_clis r) (g_cli t) = Some v /\ (0 < g_num t <= v_num v)%nat;
  iv_np : NoDup (map fst (v_posts r));
  iv_nl : NoDup (map fst (v_log r ++ v_reqs r));
  iv_in : incl (v_log r ++ v_reqs r) (v_posts r);
  iv_an : forall t code a, In (t, (code, a)) (v_anss r) -> placed St (v_log r) t code a;
  iv_go : forall i v code a, nth_error (v_clis r) i = Some v -> v_got v = Some (code, a) -> placed St (v_log r) (mktag i (v_num v)) code a;
  iv_ou : forall t code a, In (t, Some (code, a)) o -> placed St (v_log r) t code a }.
Lemma store_run_snoc St l code k : store_run St (l ++ [(code, k)]) = store_after (store_run St l) code k.
Proof. revert St. induction l as [|[c k0] l IH]; intros St; [reflexivity|]. cbn [app store_run]. apply IH. Qed.

Lemma inv_step St r o e r' o' : inv St r o -> ref_step r e = (r', o') ->
  inv St r' (o ++ o') /\ (exists ps, v_posts r' = v_posts r ++ ps) /\ (exists lg, v_log r' = v_log r ++ lg).
Proof.
  intros I. pose proof I as [Ist Ips Inp Inl Iin Ian Igo Iou]. destruct r as [st vs rs xs lg ps]. cbn [v_store v_clis v_reqs v_anss v_log v_posts] in *.
  assert (Stay : forall r0, r0 = mkrnet st vs rs xs lg ps -> inv St r0 (o ++ []) /\ (exists p, v_posts r0 = ps ++ p) /\ (exists g, v_log r0 = lg ++ g)).
  { intros r0 ->. rewrite app_nil_r. split; [exact I|]. split; exists []; rewrite app_nil_r; reflexivity. }
  destruct e as [i code k|j|j|j|j|i]; cbn [ref_step]; intros E.
  - destruct (nth_error vs i) as [v|] eqn:Ev; [|injection E as <- <-; apply Stay; reflexivity]. destruct (v_busy v) eqn:Bv; [injection E as <- <-; apply Stay; reflexivity|]. injection E as <- <-. pose proof (nth_error_len _ _ _ Ev) as Lv.
    set (t := mktag i (S (v_num v))). assert (Fresh : ~ In t (map fst ps)).
    { intros H. apply in_map_iff in H as ((t1 & c) & Et & H). cbn in Et. subst t1. destruct (Ips _ _ H) as (v1 & V1 & N). cbn [t g_cli g_num] in *. assert (v1 = v) by congruence. subst v1. lia. }
    rewrite app_nil_r. split; [|split; [eexists; reflexivity|exists []; rewrite app_nil_r; reflexivity]]. constructor; cbn [v_store v_clis v_reqs v_anss v_log v_posts]; try assumption.
    + intros t1 c H. apply in_app_or in H as [H|[H|[]]].
      * destruct (Ips _ _ H) as (v1 & V1 & N). destruct (Nat.eq_dec (g_cli t1) i) as [Ei|Ni]; [rewrite Ei in *; rewrite nth_put_same by exact Lv; eexists; split; [reflexivity|]; assert (v1 = v) by congruence; subst v1; cbn [v_num]; lia|].
        rewrite nth_put_other by assumption. eauto.
      * assert (t1 = t) as -> by congruence. cbn [t g_cli g_num]. rewrite nth_put_same by exact Lv. eexists. split; [reflexivity|]. cbn [v_num]. lia.
    + rewrite map_app. apply (Permutation_NoDup (Permutation_cons_append _ _)). constructor; assumption.
    + rewrite app_assoc, map_app. apply (Permutation_NoDup (Permutation_cons_append _ _)). constructor; [|exact Inl]. intros H. apply Fresh. apply in_map_iff in H as (y & Ey & H). change t with (fst (t, (code, k))). rewrite <- Ey. apply in_map. apply Iin. exact H.
    + intros y H. rewrite app_assoc in H. apply in_app_or in H as [H|H]; apply in_or_app; [left; apply Iin; exact H|right; exact H].
    + intros j w c a W G. destruct (Nat.eq_dec j i) as [->|Nj]; [rewrite nth_put_same in W by exact Lv; assert (w = mkrcli (S (v_num v)) true None) by congruence; subst w; discriminate|]. rewrite nth_put_other in W by assumption. exact (Igo _ _ _ _ W G).
  - destruct (nth_error rs j) as [[t [code k]]|] eqn:Ej; [|injection E as <- <-; apply Stay; reflexivity]. injection E as <- <-. destruct (drop_split _ _ _ Ej) as (l1 & l2 & Ers & Edr). subst rs.
    assert (Pm : Permutation (lg ++ l1 ++ (t, (code, k)) :: l2) ((lg ++ [(t, (code, k))]) ++ l1 ++ l2)).
    { rewrite <- app_assoc. apply Permutation_app_head. cbn [app]. symmetry. apply Permutation_middle. }
    rewrite app_nil_r. split; [|split; [exists []; rewrite app_nil_r; reflexivity|eexists; reflexivity]]. constructor; cbn [v_store v_clis v_reqs v_anss v_log v_posts]; try assumption.
    + rewrite map_app. cbn [map snd]. rewrite store_run_snoc, <- Ist. reflexivity.
    + rewrite Edr. eapply Permutation_NoDup; [|exact Inl]. apply Permutation_map. exact Pm.
    + rewrite Edr. intros y H. apply Iin. eapply Permutation_in; [symmetry; exact Pm|exact H].
    + intros t1 c a H. apply in_app_or in H as [H|H]; [apply placed_app; apply Ian; exact H|]. destruct (store_reply st code k) as [b|] eqn:Sr; [|contradiction]. destruct H as [H|[]]. assert (t1 = t /\ c = code /\ a = b) as (-> & -> & ->) by (repeat split; congruence).
      exists lg, k, []. split; [reflexivity|]. rewrite <- Ist. exact Sr.
    + intros i w c a W G. apply placed_app. exact (Igo _ _ _ _ W G).
    + intros t1 c a H. apply placed_app. exact (Iou _ _ _ H).
  - destruct (nth_error xs j) as [[t [code a]]|] eqn:Ej; [|injection E as <- <-; apply Stay; reflexivity]. destruct (nth_error vs (g_cli t)) as [v|] eqn:Ev; [|injection E as <- <-; apply Stay; reflexivity]. injection E as <- <-. pose proof (nth_error_len _ _ _ Ev) as Lv.
    rewrite app_nil_r. split; [|split; exists []; rewrite app_nil_r; reflexivity]. set (hit := v_busy v && (v_num v =? g_num t)%nat && match v_got v with None => true | Some _ => false end).
    assert (Hh : hit = true -> v_num v = g_num t) by (unfold hit; intros H; apply andb_prop in H as (H & _); apply andb_prop in H as (_ & H); apply Nat.eqb_eq; exact H).
    constructor; cbn [v_store v_clis v_reqs v_anss v_log v_posts]; try assumption.
    + intros t1 c H. destruct (Ips _ _ H) as (v1 & V1 & N). destruct hit; [|eauto]. destruct (Nat.eq_dec (g_cli t1) (g_cli t)) as [Ei|Ni]; [rewrite Ei in *; rewrite nth_put_same by exact Lv; eexists; split; [reflexivity|]; assert (v1 = v) by congruence; subst v1; exact N|].
      rewrite nth_put_other by assumption. eauto.
    + intros t1 c b H. apply Ian. exact (drop_incl j xs _ H).
    + intros i w c b W G. destruct hit; [|exact (Igo _ _ _ _ W G)]. destruct (Nat.eq_dec i (g_cli t)) as [->|Ni]; [|rewrite nth_put_other in W by assumption; exact (Igo _ _ _ _ W G)].
      rewrite nth_put_same in W by exact Lv. assert (w = mkrcli (v_num v) true (Some (code, a))) by congruence. subst w. cbn [v_num v_got] in *. assert (c = code /\ b = a) as (-> & ->) by (split; congruence).
      rewrite (Hh eq_refl). replace (mktag (g_cli t) (g_num t)) with t by (destruct t; reflexivity). apply Ian. apply nth_error_In in Ej. exact Ej.
  - injection E as <- <-. rewrite app_nil_r. split; [|split; exists []; rewrite app_nil_r; reflexivity]. constructor; cbn [v_store v_clis v_reqs v_anss v_log v_posts]; try assumption.
    + destruct (nth_error rs j) as [y|] eqn:Ej; [destruct (drop_split _ _ _ Ej) as (l1 & l2 & -> & ->)|apply nth_error_None in Ej; unfold drop_nth; rewrite firstn_all2, skipn_all2, app_nil_r by lia; exact Inl].
      rewrite app_assoc in Inl |- *. rewrite map_app in *. cbn [map] in Inl. exact (NoDup_remove_1 _ _ _ Inl).
    + intros y H. apply Iin. apply in_app_or in H as [H|H]; apply in_or_app; [now left|right; exact (drop_incl _ _ _ H)].
  - injection E as <- <-. rewrite app_nil_r. split; [|split; exists []; rewrite app_nil_r; reflexivity]. constructor; cbn [v_store v_clis v_reqs v_anss v_log v_posts]; try assumption.
    intros t1 c b H. apply Ian. exact (drop_incl j xs _ H).
  - destruct (nth_error vs i) as [v|] eqn:Ev; [|injection E as <- <-; apply Stay; reflexivity]. destruct (v_busy v) eqn:Bv; [|injection E as <- <-; apply Stay; reflexivity]. injection E as <- <-. pose proof (nth_error_len _ _ _ Ev) as Lv.
    split; [|split; exists []; rewrite app_nil_r; reflexivity]. constructor; cbn [v_store v_clis v_reqs v_anss v_log v_posts]; try assumption.
    + intros t1 c H. destruct (Ips _ _ H) as (v1 & V1 & N). destruct (Nat.eq_dec (g_cli t1) i) as [Ei|Ni]; [rewrite Ei in *; rewrite nth_put_same by exact Lv; eexists; split; [reflexivity|]; assert (v1 = v) by congruence; subst v1; exact N|].
      rewrite nth_put_other by assumption. eauto.
    + intros j w c b W G. destruct (Nat.eq_dec j i) as [->|Ni]; [|rewrite nth_put_other in W by assumption; exact (Igo _ _ _ _ W G)]. rewrite nth_put_same in W by exact Lv. assert (w = mkrcli (v_num v) false None) by congruence. subst w. discriminate.
    + intros t c a H. apply in_app_or in H as [H|[H|[]]]; [exact (Iou _ _ _ H)|]. assert (t = mktag i (v_num v)) as -> by congruence. apply (Igo i v c a Ev). congruence.
Qed.

Lemma inv_run St l : forall r o r' o', inv St r o -> ref_run r l = (r', o') ->
  inv St r' (o ++ o') /\ (exists ps, v_posts r' = v_posts r ++ ps) /\ (exists lg, v_log r' = v_log r ++ lg).
Proof.
  induction l as [|e l IH]; intros r o r' o' I E; cbn [ref_run] in E.
  - injection E as <- <-. rewrite app_nil_r. split; [exact I|]. split; exists []; rewrite app_nil_r; reflexivity.
  - destruct (ref_step r e) as [r1 o1] eqn:E1. destruct (ref_run r1 l) as [r2 o2] eqn:E2. injection E as <- <-.
    destruct (inv_step St r o e r1 o1 I E1) as (I1 & (p1 & P1) & (g1 & G1)). destruct (IH r1 _ r2 o2 I1 E2) as (I2 & (p2 & P2) & (g2 & G2)).
    rewrite app_assoc. split; [exact I2|]. split; [exists (p1 ++ p2); rewrite P2, P1, app_assoc; reflexivity|exists (g1 ++ g2); rewrite G2, G1, app_assoc; reflexivity].
Qed.
Lemma inv_start St n : inv St (ref_start St n) [].
Proof.
  constructor; cbn; try (now constructor); try contradiction; [intros x []|]. intros i v code a E. assert (v = mkrcli 0 false None) as -> by (apply nth_error_In in E; exact (repeat_spec _ _ _ E)). discriminate.
Qed.

(** C82: in the reference, the calls are treated one after the other. *)
Lemma L_C82_one_order : forall St n l r o, ref_run (ref_start St n) l = (r, o) ->
  v_store r = store_run St (map snd (v_log r)) /\
  NoDup (map fst (v_posts r)) /\ NoDup (map fst (v_log r)) /\ incl (v_log r) (v_posts r) /\
  forall t code a, In (t, Some (code, a)) o ->
    exists l1 k l2, v_log r = l1 ++ (t, (code, k)) :: l2 /\ store_reply (store_run St (map snd l1)) code k = Some a.
Proof.
  intros St n l r o E. destruct (inv_run St l _ _ _ _ (inv_start St n) E) as ([Ist Ips Inp Inl Iin Ian Igo Iou] & _). cbn [app] in Iou.
  split; [exact Ist|]. split; [exact Inp|]. split; [rewrite map_app in Inl; exact (nodup_left _ _ Inl)|]. split; [intros y H; apply Iin; apply in_or_app; now left|exact Iou].
Qed.
(** A call that returned an answer comes before every call made later. *)
Lemma L_C82_real_time : forall St n l1 l2 r1 o1 r2 o2, ref_run (ref_start St n) l1 = (r1, o1) -> ref_run r1 l2 = (r2, o2) ->
  exists ps, v_posts r2 = v_posts r1 ++ ps /\
  forall t code a t' c', In (t, Some (code, a)) o1 -> In (t', c') ps -> In (t', c') (v_log r2) ->
  exists k la lb lc, v_log r2 = la ++ (t, (code, k)) :: lb ++ (t', c') :: lc.
Proof.
  intros St n l1 l2 r1 o1 r2 o2 E1 E2. destruct (inv_run St l1 _ _ _ _ (inv_start St n) E1) as (I1 & _). destruct (inv_run St l2 _ _ _ _ I1 E2) as (I2 & (ps & P) & (lg & G)).
  exists ps. split; [exact P|]. intros t code a t' c' H1 H2 H3. destruct (iv_ou _ _ _ I1 t code a H1) as (la & k & lb & L & _).
  rewrite G in H3. apply in_app_or in H3 as [H3|H3].
  - exfalso. pose proof (iv_np _ _ _ I2) as N. rewrite P, map_app in N. apply (in_map fst) in H2. cbn [fst] in H2.
    assert (H4 : In t' (map fst (v_posts r1))) by (apply (in_map fst) with (x := (t', c')); apply (iv_in _ _ _ I1); apply in_or_app; now left).
    clear -N H2 H4. induction (map fst (v_posts r1)) as [|y l IH]; [contradiction|]. cbn [app] in N. apply NoDup_cons_iff in N as (N1 & N2). destruct H4 as [->|H4]; [apply N1; apply in_or_app; now right|exact (IH N2 H4)].
  - apply in_split in H3 as (g1 & g2 & ->). exists k, la, (lb ++ g1), g2. rewrite G, L. rewrite <- !app_assoc. reflexivity.
Qed.
