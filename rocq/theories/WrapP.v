(** More than 65535 calls of one controller (C82). *)
From Verif Require Import PyBase BytesM EsvM MsgM PropM ObjM DbData DbM NodeM LocalM CtrlM
  SpecWire SpecObj SpecReq SpecDb SpecNode SpecProf SpecLocal SpecSrv SpecCtrl SpecEnd SpecSess SpecMany DictP BytesP WireP CodecP ObjP MapP ReqP DbP NodeP ProfP LocalP AnswerP SrvP CtrlP EndP SessP BenchP ManyP.
From Verif Require Import SpecReq.
Require Import ZifyBool.

Definition lost_call (i : nat) (code : Z) (k : call) : list event := [EPost i code k; ELoseRequest 0; EReturn i].
Definition lost_calls (n i : nat) (code : Z) (k : call) : list event := concat (repeat (lost_call i code k) n).

Lemma run_ok_app l1 : forall r l2, run_ok r l1 -> run_ok (fst (ref_run r l1)) l2 -> run_ok r (l1 ++ l2).
Proof.
  induction l1 as [|e l1 IH]; intros r l2 A B; [exact B|]. destruct A as (A1 & A2). split; [exact A1|]. apply IH; [exact A2|].
  cbn [ref_run] in B. destruct (ref_step r e) as [r1 o1] eqn:E. cbn [fst]. destruct (ref_run r1 l1) as [r2 o2]. exact B.
Qed.
Lemma ref_run_app l1 : forall r l2, ref_run r (l1 ++ l2) = (let '(r1, o1) := ref_run r l1 in let '(r2, o2) := ref_run r1 l2 in (r2, o1 ++ o2)).
Proof.
  induction l1 as [|e l1 IH]; intros r l2; [cbn; destruct (ref_run r l2); reflexivity|]. cbn [app ref_run]. destruct (ref_step r e) as [r1 o1]. rewrite IH.
  destruct (ref_run r1 l1) as [r2 o2]. destruct (ref_run r2 l2) as [r3 o3]. rewrite app_assoc. reflexivity.
Qed.
Lemma net_run_app (PS : PySet) wd jd an l1 : forall x l2, net_run wd jd an x (l1 ++ l2) = (let '(r1, o1) := net_run wd jd an x l1 in let '(r2, o2) := net_run wd jd an r1 l2 in (r2, o1 ++ o2)).
Proof.
  induction l1 as [|e l1 IH]; intros r l2; [cbn; destruct (net_run wd jd an r l2); reflexivity|]. cbn [app net_run]. destruct (net_step wd jd an r e) as [r1 o1]. rewrite IH.
  destruct (net_run wd jd an r1 l1) as [r2 o2]. destruct (net_run wd jd an r2 l2) as [r3 o3]. rewrite app_assoc. reflexivity.
Qed.
Lemma put_put {A} i (a b : A) l : (i < length l)%nat -> put_nth i b (put_nth i a l) = put_nth i b l.
Proof.
  intros H. unfold put_nth. assert (L : length (firstn i l) = i) by (rewrite firstn_length; lia). f_equal.
  - rewrite <- L at 1. rewrite firstn_app, Nat.sub_diag, firstn_O, app_nil_r, firstn_all. reflexivity.
  - f_equal. change (a :: skipn (S i) l) with ([a] ++ skipn (S i) l). rewrite app_assoc. assert (L2 : length (firstn i l ++ [a]) = S i) by (rewrite app_length, L; cbn; lia).
    rewrite <- L2 at 1. rewrite skipn_app, Nat.sub_diag, skipn_all. reflexivity.
Qed.

(** The reference: calls that are lost only count. *)
Lemma ref_lost n : forall i code k St cs xs lg ps v,
  (i < length cs)%nat -> nth_error cs i = Some (mkrcli v false None) -> post_ok code k -> Z.of_nat (v + n) <= 65535 ->
  exists o ps', ref_run (mkrnet St cs [] xs lg ps) (lost_calls n i code k) = (mkrnet St (put_nth i (mkrcli (v + n) false None) cs) [] xs lg ps', o) /\
  o = map (fun j => (mktag i j, None)) (seq (S v) n) /\ run_ok (mkrnet St cs [] xs lg ps) (lost_calls n i code k).
Proof.
  induction n as [|n IH]; intros i code k St cs xs lg ps v Li E P L.
  - exists [], ps. split; [|split; [reflexivity|exact Logic.I]]. cbn. rewrite Nat.add_0_r. do 2 f_equal. unfold put_nth.
    rewrite <- (firstn_skipn i cs) at 1. f_equal. clear -E. revert i E. induction cs as [|c cs IH]; intros [|i] E; cbn in *; try discriminate; [congruence|]. apply IH. exact E.
  - change (lost_calls (S n) i code k) with (lost_call i code k ++ lost_calls n i code k).
    set (cs1 := put_nth i (mkrcli (S v) false None) cs).
    assert (L1 : (i < length cs1)%nat) by (unfold cs1; rewrite put_nth_length; exact Li).
    assert (E1 : nth_error cs1 i = Some (mkrcli (S v) false None)) by (apply nth_put_same; exact Li).
    set (t := (mktag i (S v), (code, k))).
    assert (St1 : ref_run (mkrnet St cs [] xs lg ps) (lost_call i code k) = (mkrnet St cs1 [] xs lg (ps ++ [t]), [(mktag i (S v), None)])).
    { unfold lost_call. cbn [ref_run ref_step]. rewrite E. cbn [v_busy v_num app ref_step drop_nth firstn skipn]. rewrite nth_put_same by exact Li. cbn [v_busy v_num v_got app]. unfold drop_nth. cbn [firstn skipn app]. rewrite put_put by exact Li. reflexivity. }
    destruct (IH i code k St cs1 xs lg (ps ++ [t]) (S v) L1 E1 P) as (o & ps' & R & O & K); [lia|].
    eexists. exists ps'. rewrite ref_run_app, St1, R. split; [|split].
    + unfold cs1. rewrite put_put by exact Li. replace (S v + n)%nat with (v + S n)%nat by lia. reflexivity.
    + rewrite O. reflexivity.
    + apply run_ok_app; [|rewrite St1; exact K]. unfold lost_call. cbn [run_ok event_ok v_clis]. rewrite E. cbn [v_num]. repeat split; try assumption; try exact Logic.I; try apply P; lia.
Qed.

Lemma nth_put_ts {A} (d : A) i j a l : (i < length l)%nat -> nth j (put_nth i a l) d = if (j =? i)%nat then a else nth j l d.
Proof.
  intros H. destruct (Nat.eqb_spec j i) as [->|N]; [apply nth_error_nth, nth_put_same, H|].
  destruct (nth_error l j) as [b|] eqn:E.
  - rewrite (nth_error_nth l j d E). apply nth_error_nth. rewrite nth_put_other by assumption. exact E.
  - rewrite !nth_overflow; [reflexivity| |]; [|rewrite put_nth_length by exact H]; apply nth_error_None; exact E.
Qed.
Lemma wrap_tid t n : 0 <= t <= 65535 -> Z.of_nat n = 65535 -> tid_after (tid_after t n) 1 = tid_after t 1.
Proof.
  intros T N. change (tid_after (tid_after t n) 1) with (tid_after t (S n)). rewrite !tid_after_eq by exact T. rewrite N.
  change (Z.of_nat 0) with 0. rewrite Z.add_0_r. f_equal. rewrite <- Zplus_mod_idemp_r. change (65535 mod 65535) with 0. rewrite Z.add_0_r. reflexivity.
Qed.
(** The relation does not depend on where the count of a controller starts. *)
Lemma rebase jd an As ts d td cs St vs lg ps i n : simrel jd an As ts (mknet d td cs [] []) (mkrnet St vs [] [] lg ps) ->
  nth_error vs i = Some (mkrcli n false None) ->
  simrel jd an As (put_nth i (tid_after (nth i ts 0) n) ts) (mknet d td cs [] []) (mkrnet St (put_nth i (mkrcli 0 false None) vs) [] [] [] []).
Proof.
  intros [Ht Ha Hn Hc Hr Hx Ho Hd Hm Hs] E. cbn [w_dev w_dtr w_clis w_reqs w_anss v_store v_clis v_reqs v_anss] in *.
  destruct Hc as (L1 & L2 & Hc). assert (Li : (i < length ts)%nat) by (rewrite <- L2; exact (nth_error_len _ _ _ E)).
  constructor; cbn [w_dev w_dtr w_clis w_reqs w_anss v_store v_clis v_reqs v_anss]; try assumption; try constructor.
  - rewrite Forall_forall in Ht |- *. intros t I. apply In_nth_error in I. destruct I as (j & I). destruct (Nat.eq_dec j i) as [->|N].
    + rewrite nth_put_same in I by exact Li. assert (t = tid_after (nth i ts 0) n) as -> by congruence. apply tid_after_range, Ht, nth_In. exact Li.
    + rewrite nth_put_other in I by assumption. apply Ht. exact (nth_error_In _ _ I).
  - rewrite put_nth_length by exact Li. exact L1.
  - rewrite !put_nth_length by congruence. split; [exact L2|]. intros j c v Ec Ev. rewrite nth_put_ts by exact Li. destruct (Nat.eqb_spec j i) as [->|N].
    + rewrite nth_put_same in Ev by congruence. assert (v = mkrcli 0 false None) as -> by congruence. destruct (Hc i c _ Ec E) as [Q R D O T N B C]. constructor; try assumption.
      * cbn. lia.
      * destruct C as (l & nd & C1 & C2 & _). exists l, nd. split; [exact C1|]. split; [exact C2|]. discriminate.
    + rewrite nth_put_other in Ev by (try exact N; congruence). exact (Hc j c v Ec Ev).
Qed.

Lemma post_frame (PS : PySet) wd jd an d td cs rs xs i code k : net_step wd jd an (mknet d td cs rs xs) (EPost i code k) =
  (let '(mknet d1 td1 cs1 rs1 xs1, o) := net_step wd jd an (mknet d td cs rs []) (EPost i code k) in (mknet d1 td1 cs1 rs1 (xs ++ xs1), o)).
Proof.
  cbn [net_step]. destruct (nth_error cs i) as [c|]; [|rewrite app_nil_r; reflexivity]. destruct (k_busy c); [rewrite app_nil_r; reflexivity|].
  destruct (post_begin (k_os c) (k_tr c) (k_node c) (request code k) (k_dest c)) as [[[s1 t1] m1] [[|]|e]]; rewrite app_nil_r; reflexivity.
Qed.

(** The answer of the first call is returned for the 65536th. *)
Lemma wrap_last (PS : PySet) wd jd an As ts x i n vs St lg ps code a code' k' :
  quiet wd -> reliable wd -> simrel jd an As ts x (mkrnet St vs [] [(mktag i 1, (code, a))] lg ps) ->
  nth_error vs i = Some (mkrcli n false None) -> Z.of_nat n = 65535 -> post_ok code' k' ->
  exists x', net_run wd jd an x [EPost i code' k'; EAnswer 0; EReturn i] = (x', [as_returned an ts (mktag i 1, Some (code, a))]) /\ length (w_reqs x') = 1%nat.
Proof.
  intros Qd Rd Sm E En P. destruct x as [d td cs rs xs]. pose proof Sm as [Ht Ha Hn Hc Hr Hx Ho Hd Hm Hs]. cbn [w_dev w_dtr w_clis w_reqs w_anss v_store v_clis v_reqs v_anss] in *.
  assert (rs = []) as -> by (inversion Hr; reflexivity).
  destruct xs as [|[i0 b] xs]; [inversion Hx|]. assert (xs = []) as -> by (inversion Hx as [|? ? ? ? ? X]; inversion X; reflexivity).
  assert (An : ansrel As ts vs (i0, b) (mktag i 1, (code, a))) by (inversion Hx; assumption). clear Hx.
  assert (Sm0 : simrel jd an As ts (mknet d td cs [] []) (mkrnet St vs [] [] lg ps)) by (constructor; cbn; try assumption; constructor).
  pose proof (rebase _ _ _ _ _ _ _ _ _ _ _ _ _ Sm0 E) as S1. set (ts' := put_nth i (tid_after (nth i ts 0) n) ts) in *. set (vs' := put_nth i (mkrcli 0 false None) vs) in *.
  assert (Lv : (i < length vs)%nat) by exact (nth_error_len _ _ _ E). assert (Lt : (i < length ts)%nat) by (destruct Hc as (_ & L2 & _); congruence).
  assert (E' : nth_error vs' i = Some (mkrcli 0 false None)) by (apply nth_put_same; exact Lv). assert (Lv' : (i < length vs')%nat) by exact (nth_error_len _ _ _ E').
  assert (T0 : 0 <= nth i ts 0 <= 65535) by (rewrite Forall_forall in Ht; apply Ht, nth_In; exact Lt).
  assert (Tt : tid_after (nth i ts' 0) 1 = tid_after (nth i ts 0) 1).
  { unfold ts'. rewrite nth_put_ts, Nat.eqb_refl by exact Lt. exact (wrap_tid _ _ T0 En). }
  destruct (sim_step PS wd jd an As ts' _ _ (EPost i code' k') Qd Rd S1) as (x2 & o2 & r2 & N2 & F2 & S2).
  { split; [exact P|]. cbn [v_clis]. rewrite E'. cbn. lia. }
  cbn [ref_step] in F2. rewrite E' in F2. cbn [v_busy v_num app] in F2.
  assert (o2 = []) as -> by congruence.
  assert (Er : r2 = mkrnet St (put_nth i (mkrcli 1 true None) vs') [(mktag i 1, (code', k'))] [] [] [(mktag i 1, (code', k'))]) by congruence. subst r2. clear F2.
  set (vs2 := put_nth i (mkrcli 1 true None) vs') in *.
  assert (E2 : nth_error vs2 i = Some (mkrcli 1 true None)) by (apply nth_put_same; exact Lv').
  destruct x2 as [d2 td2 cs2 rs2 xs2]. pose proof S2 as [Ht2 Ha2 Hn2 Hc2 Hr2 Hx2 Ho2 Hd2 Hm2 Hs2]. cbn [w_dev w_dtr w_clis w_reqs w_anss v_store v_clis v_reqs v_anss] in *.
  assert (xs2 = []) as -> by (inversion Hx2; reflexivity).
  cbn [net_run]. rewrite post_frame, N2. rewrite app_nil_r. cbn [map].
  assert (S3 : simrel jd an As ts' (mknet d2 td2 cs2 rs2 [(i0, b)]) (mkrnet St vs2 [(mktag i 1, (code', k'))] [(mktag i 1, (code, a))] [] [(mktag i 1, (code', k'))])).
  { constructor; cbn [w_dev w_dtr w_clis w_reqs w_anss v_store v_clis v_reqs v_anss]; try assumption. constructor; [|constructor].
    destruct An as (I0 & ac & (M1 & _) & An). cbn [g_cli g_num fst snd] in *. split; [exact I0|]. exists ac. split.
    - split; [exact M1|]. exists (mkrcli 1 true None). split; [exact E2|]. cbn. lia.
    - cbn [g_cli g_num]. rewrite Tt. exact An. }
  destruct (sim_step PS wd jd an As ts' _ _ (EAnswer 0) Qd Rd S3 Logic.I) as (x4 & o4 & r4 & N4 & F4 & S4). rewrite N4.
  cbn [ref_step nth_error g_cli] in F4. rewrite E2 in F4. cbn [v_busy v_num v_got g_num Nat.eqb andb] in F4.
  assert (o4 = []) as -> by congruence.
  assert (Er4 : r4 = mkrnet St (put_nth i (mkrcli 1 true (Some (code, a))) vs2) [(mktag i 1, (code', k'))] [] [] [(mktag i 1, (code', k'))]).
  { unfold drop_nth in F4. cbn [firstn skipn app] in F4. congruence. }
  subst r4. clear F4.
  destruct (sim_step PS wd jd an As ts' _ _ (EReturn i) Qd Rd S4 Logic.I) as (x5 & o5 & r5 & N5 & F5 & S5). rewrite N5.
  cbn [ref_step] in F5. rewrite nth_put_same in F5 by exact (nth_error_len _ _ _ E2). cbn [v_busy v_num v_got] in F5.
  assert (o5 = [(mktag i 1, Some (code, a))]) as -> by congruence.
  exists x5. split.
  - cbn [map app as_returned]. rewrite Tt. reflexivity.
  - pose proof (sr_rs _ _ _ _ _ _ S5) as Hr5. assert (v_reqs r5 = [(mktag i 1, (code', k'))]) as V5 by (replace r5 with (fst (r5, [(mktag i 1, Some (code, a))])) by reflexivity; rewrite <- F5; reflexivity).
    rewrite V5 in Hr5. inversion Hr5 as [|? ? ? ? ? X]; subst. inversion X. reflexivity.
Qed.

(** C82: of more calls than there are TIDs, the last is given the answer of the first. *)
Lemma L_C82_wraparound_refuted : forall (PS : PySet) wd jd an St x i c code k a code' k' n,
  quiet wd -> reliable wd -> all_ready jd an St x -> nth_error (w_clis x) i = Some c ->
  post_ok code k -> call_ok St code k -> store_reply St code k = Some a -> post_ok code' k' -> Z.of_nat n = 65534 ->
  let before := [EPost i code k; EServe 0; EReturn i] ++ concat (repeat [EPost i code k; ELoseRequest 0; EReturn i] n) in
  let last := [EPost i code' k'; EAnswer 0; EReturn i] in
  run_ok (ref_start St (length (w_clis x))) before /\
  (exists x', net_run wd jd an x (before ++ last) = (x', repeat (i, None) (S n) ++ [as_returned an (start_tids x) (mktag i 1, Some (code, a))]) /\
              length (w_reqs x') = 1%nat) /\
  snd (ref_run (ref_start St (length (w_clis x))) (before ++ last)) = map (fun j => (mktag i j, None)) (seq 1 (S (S n))).
Proof.
  intros PS wd jd an St x i c code k a code' k' n Qd Rd Re Ec P1 C1 A1 P2 N before last. change (concat _) with (lost_calls n i code k) in before.
  set (m := length (w_clis x)). set (r0 := ref_start St m).
  assert (Li : (i < m)%nat) by exact (nth_error_len _ _ _ Ec).
  assert (E0 : nth_error (repeat (mkrcli 0 false None) m) i = Some (mkrcli 0 false None)) by (apply nth_error_repeat; exact Li).
  assert (L0 : (i < length (repeat (mkrcli 0 false None) m))%nat) by (rewrite repeat_length; exact Li).
  set (vs := put_nth i (mkrcli 1 false None) (repeat (mkrcli 0 false None) m)).
  assert (Lv : (i < length vs)%nat) by (unfold vs; rewrite put_nth_length; exact L0).
  assert (Ev : nth_error vs i = Some (mkrcli 1 false None)) by (apply nth_put_same; exact L0).
  set (t := (mktag i 1, (code, k))).
  assert (F1 : ref_run r0 [EPost i code k; EServe 0; EReturn i] = (mkrnet (store_after St code k) vs [] [(mktag i 1, (code, a))] [t] [t], [(mktag i 1%nat, None)])).
  { unfold r0, ref_start. cbn [ref_run ref_step]. rewrite E0. cbn [v_busy v_num app ref_step nth_error]. rewrite A1. cbn [app]. unfold drop_nth. cbn [firstn skipn app]. rewrite nth_put_same by exact L0. cbn [v_busy v_num v_got app].
    rewrite put_put by exact L0. reflexivity. }
  assert (O1 : run_ok r0 [EPost i code k; EServe 0; EReturn i]).
  { cbn [run_ok event_ok]. unfold r0 at 1, ref_start. cbn [v_clis]. rewrite E0. cbn [v_num]. split; [split; [exact P1|lia]|].
    unfold r0, ref_start. cbn [ref_step]. rewrite E0. cbn [v_busy v_num app fst v_reqs nth_error v_store]. auto. }
  destruct (ref_lost n i code k (store_after St code k) vs [(mktag i 1%nat, (code, a))] [t] [t] 1 Lv Ev P1) as (o2 & ps2 & F2 & O2 & K2); [lia|].
  assert (OkB : run_ok r0 before) by (apply run_ok_app; [exact O1|rewrite F1; exact K2]).
  assert (RB : ref_run r0 before = (mkrnet (store_after St code k) (put_nth i (mkrcli (1 + n) false None) vs) [] [(mktag i 1%nat, (code, a))] [t] ps2, map (fun j => (mktag i j, None)) (seq 1 (S n)))).
  { unfold before. rewrite ref_run_app, F1, F2, O2. reflexivity. }
  split; [exact OkB|]. split.
  - destruct (sim_run PS wd jd an _ _ Qd Rd before x _ (sim_start jd an St x Re) OkB) as (x1 & o1 & r1 & N1 & G1 & S1). fold m r0 in G1. rewrite RB in G1.
    assert (Er : r1 = mkrnet (store_after St code k) (put_nth i (mkrcli (1 + n) false None) vs) [] [(mktag i 1%nat, (code, a))] [t] ps2) by congruence.
    assert (Eo : o1 = map (fun j => (mktag i j, None)) (seq 1 (S n))) by congruence. subst r1 o1. clear G1.
    destruct (wrap_last PS wd jd an _ _ x1 i (1 + n) _ _ _ _ code a code' k' Qd Rd S1) as (x' & N2 & L2); [apply nth_put_same; exact Lv|lia|exact P2|].
    exists x'. split; [|exact L2]. rewrite net_run_app, N1. unfold last. rewrite N2. f_equal. f_equal. rewrite map_map. cbn [as_returned option_map].
    generalize 1%nat. generalize (S n). intros q. induction q as [|q IH]; intros s; [reflexivity|]. cbn [seq map repeat]. rewrite IH. reflexivity.
  - rewrite ref_run_app, RB. unfold last.
    set (vs3 := put_nth i (mkrcli (1 + n) false None) vs). assert (L3 : (i < length vs3)%nat) by (unfold vs3; rewrite put_nth_length; exact Lv).
    cbn [ref_run ref_step]. unfold vs3 at 1. rewrite nth_put_same by exact Lv. cbn [v_busy v_num app ref_step nth_error g_cli]. rewrite nth_put_same by exact L3. cbn [v_busy v_num v_got g_num andb].
    destruct (Nat.eqb_spec (S (1 + n)) 1) as [X|_]; [lia|]. cbn [andb ref_step]. rewrite nth_put_same by exact L3. cbn [v_busy v_num v_got app snd].
    replace (S (S n)) with (S n + 1)%nat by lia. rewrite seq_app, map_app. reflexivity.
Qed.
