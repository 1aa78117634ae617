(** Lemmas for C97: the call a message is returned to, and more than 65535 calls of one controller. *)
From Verif Require Import PyBase BytesM EsvM MsgM PropM ObjM DbData DbM NodeM LocalM CtrlM
  SpecWire SpecObj SpecReq SpecDb SpecNode SpecProf SpecLocal SpecSrv SpecCtrl SpecEnd SpecSess SpecMany SpecMulti DictP BytesP WireP CodecP ObjP MapP ReqP DbP NodeP ProfP LocalP AnswerP SrvP CtrlP EndP SessP BenchP ManyP MultiP WrapP.
From Verif Require Import SpecReq.
Require Import ZifyBool.

Lemma mrun_ok_app l1 : forall r l2, mrun_ok r l1 -> mrun_ok (fst (mref_run r l1)) l2 -> mrun_ok r (l1 ++ l2).
Proof.
  induction l1 as [|e l1 IH]; intros r l2 A B; [exact B|]. destruct A as (A1 & A2). split; [exact A1|]. apply IH; [exact A2|].
  cbn [mref_run] in B. destruct (mref_step r e) as [r1 o1] eqn:E. cbn [fst]. destruct (mref_run r1 l1) as [r2 o2]. exact B.
Qed.
Lemma mrun_ok_split l1 : forall r l2, mrun_ok r (l1 ++ l2) -> mrun_ok r l1 /\ mrun_ok (fst (mref_run r l1)) l2.
Proof.
  induction l1 as [|e l1 IH]; intros r l2 A; [split; [exact Logic.I|exact A]|]. destruct A as (A1 & A2). destruct (IH _ _ A2) as (B1 & B2). split; [split; assumption|].
  cbn [mref_run]. destruct (mref_step r e) as [r1 o1] eqn:E. cbn [fst] in B2. destruct (mref_run r1 l1) as [r2 o2]. exact B2.
Qed.
Lemma mref_run_app l1 : forall r l2, mref_run r (l1 ++ l2) = (let '(r1, o1) := mref_run r l1 in let '(r2, o2) := mref_run r1 l2 in (r2, o1 ++ o2)).
Proof.
  induction l1 as [|e l1 IH]; intros r l2; [cbn; destruct (mref_run r l2); reflexivity|]. cbn [app mref_run]. destruct (mref_step r e) as [r1 o1]. rewrite IH.
  destruct (mref_run r1 l1) as [r2 o2]. destruct (mref_run r2 l2) as [r3 o3]. rewrite app_assoc. reflexivity.
Qed.
Lemma mnet_run_app (PS : PySet) l1 : forall x l2, mnet_run x (l1 ++ l2) = (let '(r1, o1) := mnet_run x l1 in let '(r2, o2) := mnet_run r1 l2 in (r2, o1 ++ o2)).
Proof.
  induction l1 as [|e l1 IH]; intros r l2; [cbn; destruct (mnet_run r l2); reflexivity|]. cbn [app mnet_run]. destruct (mnet_step r e) as [r1 o1]. rewrite IH.
  destruct (mnet_run r1 l1) as [r2 o2]. destruct (mnet_run r2 l2) as [r3 o3]. rewrite app_assoc. reflexivity.
Qed.

(** ** The call a message is returned to *)
(** While a call of controller [i] runs, its number does not change; calls made stay made. *)
Lemma m_running l : forall r r' o i v, mref_run r l = (r', o) -> nth_error (z_clis r) i = Some v -> z_busy v = true -> ~ In (MReturn i) l ->
  exists v', nth_error (z_clis r') i = Some v' /\ z_busy v' = true /\ z_num v' = z_num v.
Proof.
  induction l as [|e l IH]; intros r r' o i v F E B N; [cbn in F; exists v; assert (r = r') as -> by congruence; auto|].
  cbn [mref_run] in F. destruct (mref_step r e) as [r1 o1] eqn:E1. destruct (mref_run r1 l) as [r2 o2] eqn:E2. assert (r2 = r') as -> by congruence.
  assert (K : exists v1, nth_error (z_clis r1) i = Some v1 /\ z_busy v1 = true /\ z_num v1 = z_num v).
  { assert (Keep : z_clis r1 = z_clis r -> exists v1, nth_error (z_clis r1) i = Some v1 /\ z_busy v1 = true /\ z_num v1 = z_num v) by (intros ->; exists v; auto).
    destruct r as [T vs rs xs lg ps]. cbn [z_clis] in *. destruct e as [j p code k|j|j|j|j|j]; cbn [mref_step] in E1.
    - destruct (nth_error vs j) as [w|] eqn:Ew; [|apply Keep; injection E1 as <- _; reflexivity]. destruct (dest_addr p) as [a|]; [|apply Keep; injection E1 as <- _; reflexivity].
      destruct (z_busy w) eqn:Bw; [apply Keep; injection E1 as <- _; reflexivity|]. assert (j <> i) by congruence. injection E1 as <- _. cbn [z_clis]. rewrite nth_put_other by (try congruence; exact (nth_error_len _ _ _ Ew)). exists v. auto.
    - apply Keep. destruct (nth_error rs j) as [[t [a [code k]]]|]; [destruct (T a)|]; injection E1 as <- _; reflexivity.
    - destruct (nth_error xs j) as [[t a]|]; [|apply Keep; injection E1 as <- _; reflexivity]. destruct (nth_error vs (g_cli t)) as [w|] eqn:Ew; [|apply Keep; injection E1 as <- _; reflexivity].
      injection E1 as <- _. cbn [z_clis]. destruct (_ && _ && _); [|exists v; auto]. destruct (Nat.eq_dec i (g_cli t)) as [Q|Q].
      + subst i. rewrite nth_put_same by exact (nth_error_len _ _ _ Ew). assert (w = v) as -> by congruence. eexists. split; [reflexivity|]. auto.
      + rewrite nth_put_other by (try exact Q; exact (nth_error_len _ _ _ Ew)). exists v. auto.
    - apply Keep. injection E1 as <- _. reflexivity.
    - apply Keep. injection E1 as <- _. reflexivity.
    - destruct (nth_error vs j) as [w|] eqn:Ew; [|apply Keep; injection E1 as <- _; reflexivity]. destruct (z_busy w); [|apply Keep; injection E1 as <- _; reflexivity].
      assert (i <> j) by (intros ->; apply N; now left). injection E1 as <- _. cbn [z_clis]. rewrite nth_put_other by (try assumption; exact (nth_error_len _ _ _ Ew)). exists v. auto. }
  destruct K as (v1 & K1 & K2 & K3). destruct (IH r1 r' o2 i v1 E2 K1 K2) as (v' & H1 & H2 & H3); [intros H; apply N; now right|]. exists v'. split; [exact H1|]. split; [exact H2|]. congruence.
Qed.
Lemma m_posts_stay l : forall r r' o, mref_run r l = (r', o) -> incl (z_posts r) (z_posts r').
Proof.
  induction l as [|e l IH]; intros r r' o F; [cbn in F; assert (r = r') as -> by congruence; intros a; auto|].
  cbn [mref_run] in F. destruct (mref_step r e) as [r1 o1] eqn:E1. destruct (mref_run r1 l) as [r2 o2] eqn:E2. assert (r2 = r') as -> by congruence.
  intros t H. apply (IH _ _ _ E2). destruct r as [T vs rs xs lg ps]. cbn [z_posts] in H. destruct e as [j p code k|j|j|j|j|j]; cbn [mref_step] in E1.
  - destruct (nth_error vs j) as [w|]; [destruct (dest_addr p); [destruct (z_busy w)|]|]; injection E1 as <- _; cbn [z_posts]; try exact H. apply in_or_app. left. exact H.
  - destruct (nth_error rs j) as [[t0 [a [code k]]]|]; [destruct (T a)|]; injection E1 as <- _; exact H.
  - destruct (nth_error xs j) as [[t0 a]|]; [destruct (nth_error vs (g_cli t0))|]; injection E1 as <- _; exact H.
  - injection E1 as <- _. exact H.
  - injection E1 as <- _. exact H.
  - destruct (nth_error vs j) as [w|]; [destruct (z_busy w)|]; injection E1 as <- _; exact H.
Qed.

Lemma L_C97_same_call_partial : forall (PS : PySet) T x l1 i p code k l2 x1 o1 c x2 o2 x3 m, multi_ready T x ->
  mrun_ok (mref_start T (length (y_clis x))) (l1 ++ MPost i p code k :: l2 ++ [MReturn i]) -> ~ In (MReturn i) l2 ->
  mnet_run x l1 = (x1, o1) -> nth_error (y_clis x1) i = Some c -> y_busy c = false ->
  mnet_run x1 (MPost i p code k :: l2) = (x2, o2) -> mnet_step x2 (MReturn i) = (x3, [(i, Some m)]) ->
  m_from m = dest_addr p /\ m_SEOJ m = code.
Proof.
  intros PS T x l1 i p code k l2 x1 o1 c x2 o2 x3 m Re Ok Nr N1 Ec Bc N2 N3. set (r0 := mref_start T (length (y_clis x))) in *.
  pose proof Ok as Ok0. apply mrun_ok_split in Ok0 as (Ok1 & Ok2).
  destruct (msim_run PS _ _ _ l1 x _ (msim_start T x Re) Ok1) as (x1' & p1 & r1 & M1 & F1 & S1). rewrite N1 in M1. assert (x1' = x1) as -> by congruence. fold r0 in F1. rewrite F1 in Ok2. cbn [fst] in Ok2.
  pose proof (mclisrel_nth _ _ _ _ i (ms_cs _ _ _ _ _ S1)) as Hi. rewrite Ec in Hi. destruct (nth_error (z_clis r1) i) as [v|] eqn:Ev; [|contradiction].
  assert (Bv : z_busy v = false) by (rewrite <- (mc_b _ _ _ _ Hi); exact Bc).
  pose proof Ok2 as ((_ & Dp & _) & _). destruct (dest_addr p) as [a|] eqn:Da; [|contradiction].
  change (MPost i p code k :: l2 ++ [MReturn i]) with ((MPost i p code k :: l2) ++ [MReturn i]) in Ok2. apply mrun_ok_split in Ok2 as (Ok2 & Ok3).
  destruct (msim_run PS _ _ _ (MPost i p code k :: l2) x1 r1 S1 Ok2) as (x2' & p2 & r2 & M2 & F2 & S2). rewrite N2 in M2. assert (x2' = x2) as -> by congruence. rewrite F2 in Ok3. cbn [fst] in Ok3.
  destruct (msim_step PS _ _ _ x2 r2 (MReturn i) S2 Logic.I) as (x3' & p3 & r3 & M3 & F3 & S3). rewrite N3 in M3.
  assert (All : mref_run r0 (l1 ++ (MPost i p code k :: l2) ++ [MReturn i]) = (r3, p1 ++ p2 ++ p3)).
  { rewrite mref_run_app, F1, mref_run_app, F2. cbn [mref_run]. rewrite F3, app_nil_r. reflexivity. }
  destruct (L_C97_one_order T _ _ _ _ All) as (_ & Nd & _ & Inc & Pl).
  assert (Ps : In (mktag i (S (z_num v)), (a, (code, k))) (z_posts r3) /\ exists v2, nth_error (z_clis r2) i = Some v2 /\ z_busy v2 = true /\ z_num v2 = S (z_num v)).
  { cbn [mref_run] in F2. destruct (mref_step r1 (MPost i p code k)) as [ra oa] eqn:Ea. destruct (mref_run ra l2) as [rb ob] eqn:Eb. assert (rb = r2) as -> by congruence.
    destruct r1 as [T1 vs rs xs lg ps]. cbn [z_clis] in Ev. cbn [mref_step] in Ea. rewrite Ev, Da, Bv in Ea.
    assert (Pa : In (mktag i (S (z_num v)), (a, (code, k))) (z_posts ra)) by (injection Ea as <- _; cbn [z_posts]; apply in_or_app; right; now left).
    assert (Va : nth_error (z_clis ra) i = Some (mkmcli (S (z_num v)) true None)) by (injection Ea as <- _; cbn [z_clis]; apply nth_put_same; exact (nth_error_len _ _ _ Ev)).
    split.
    - apply (m_posts_stay [MReturn i] r2 r3 (p3 ++ [])); [cbn [mref_run]; rewrite F3; reflexivity|]. exact (m_posts_stay l2 ra r2 ob Eb _ Pa).
    - exact (m_running l2 ra r2 ob i _ Eb Va eq_refl Nr). }
  destruct Ps as (Pt & v2 & E2 & B2 & Nu).
  assert (P3 : p3 = [(mktag i (S (z_num v)), z_got v2)]).
  { destruct r2 as [T2 vs2 rs2 xs2 lg2 ps2]. cbn [z_clis] in E2. cbn [mref_step] in F3. rewrite E2, B2, Nu in F3. congruence. }
  subst p3. cbn [map m_returned] in M3. assert (Em : option_map (fun '(an, (code, (e, ps, ss, gs))) => mkmsg (tid_after (nth i (multi_tids x) 0%Z) (S (z_num v))) code 0x0EF001 e ps ss gs (Some an) None) (z_got v2) = Some m) by congruence.
  destruct (z_got v2) as [[an [cd [[[e ps] ss] gs]]]|]; [|discriminate]. cbn [option_map] in Em.
  destruct (Pl (mktag i (S (z_num v))) an cd (e, ps, ss, gs)) as (la & k0 & lb & St & Lg & _); [apply in_or_app; right; apply in_or_app; right; now left|].
  assert (Pt2 : In (mktag i (S (z_num v)), (an, (cd, k0))) (z_posts r3)) by (apply Inc; rewrite Lg; apply in_or_app; right; now left).
  assert (Q : (a, (code, k)) = (an, (cd, k0))) by (revert Nd Pt Pt2; clear; generalize (z_posts r3); intros l; induction l as [|q l IH]; cbn [map In]; intros Nd A B; [contradiction|]; destruct A as [A|A], B as [B|B];
    [congruence| | |apply NoDup_cons_iff in Nd as (_ & Nd); auto]; apply NoDup_cons_iff in Nd as (Nd & _); exfalso; apply Nd; subst q; cbn [fst]; [apply in_map_iff; exists (mktag i (S (z_num v)), (an, (cd, k0)))|apply in_map_iff; exists (mktag i (S (z_num v)), (a, (code, k)))]; auto).
  assert (Em' : mkmsg (tid_after (nth i (multi_tids x) 0%Z) (S (z_num v))) cd 0x0EF001 e ps ss gs (Some an) None = m) by congruence. subst m. cbn [m_from m_SEOJ]. split; congruence.
Qed.

(** ** More calls than there are TIDs *)
Definition m_lost_call (i : nat) (p : dest) (code : Z) (k : call) : list mevent := [MPost i p code k; MLoseRequest 0; MReturn i].
Definition m_lost_calls (n i : nat) (p : dest) (code : Z) (k : call) : list mevent := concat (repeat (m_lost_call i p code k) n).
Lemma mref_lost n : forall i p an Sa code k T cs xs lg ps v,
  (i < length cs)%nat -> nth_error cs i = Some (mkmcli v false None) -> post_ok code k -> dest_addr p = Some an -> T an = Some Sa -> Z.of_nat (v + n) <= 65535 ->
  exists o ps', mref_run (mkmref T cs [] xs lg ps) (m_lost_calls n i p code k) = (mkmref T (put_nth i (mkmcli (v + n) false None) cs) [] xs lg ps', o) /\
  o = map (fun j => (mktag i j, None)) (seq (S v) n) /\ mrun_ok (mkmref T cs [] xs lg ps) (m_lost_calls n i p code k).
Proof.
  induction n as [|n IH]; intros i p an Sa code k T cs xs lg ps v Li E P Da Ta L.
  - exists [], ps. split; [|split; [reflexivity|exact Logic.I]]. cbn. rewrite Nat.add_0_r. do 2 f_equal. unfold put_nth.
    rewrite <- (firstn_skipn i cs) at 1. f_equal. clear -E. revert i E. induction cs as [|c cs IH]; intros [|i] E; cbn in *; try discriminate; [congruence|]. apply IH. exact E.
  - change (m_lost_calls (S n) i p code k) with (m_lost_call i p code k ++ m_lost_calls n i p code k).
    set (cs1 := put_nth i (mkmcli (S v) false None) cs).
    assert (L1 : (i < length cs1)%nat) by (unfold cs1; rewrite put_nth_length; exact Li).
    assert (E1 : nth_error cs1 i = Some (mkmcli (S v) false None)) by (apply nth_put_same; exact Li).
    set (t := (mktag i (S v), (an, (code, k)))).
    assert (St1 : mref_run (mkmref T cs [] xs lg ps) (m_lost_call i p code k) = (mkmref T cs1 [] xs lg (ps ++ [t]), [(mktag i (S v), None)])).
    { unfold m_lost_call. cbn [mref_run mref_step]. rewrite E, Da, Ta. cbn [z_busy z_num app mref_step drop_nth firstn skipn]. rewrite nth_put_same by exact Li. cbn [z_busy z_num z_got app]. unfold drop_nth. cbn [firstn skipn app]. rewrite put_put by exact Li. reflexivity. }
    destruct (IH i p an Sa code k T cs1 xs lg (ps ++ [t]) (S v) L1 E1 P Da Ta) as (o & ps' & R & O & K); [lia|].
    eexists. exists ps'. rewrite mref_run_app, St1, R. split; [|split].
    + unfold cs1. rewrite put_put by exact Li. replace (S v + n)%nat with (v + S n)%nat by lia. reflexivity.
    + rewrite O. reflexivity.
    + apply mrun_ok_app; [|rewrite St1; exact K]. unfold m_lost_call. cbn [mrun_ok mevent_ok z_clis]. rewrite E. cbn [z_num]. repeat split; try assumption; try exact Logic.I; try apply P; try lia. rewrite Da. discriminate.
Qed.
(** The relation does not depend on where the count of a controller starts. *)
Lemma m_rebase Ds As ts ds cs T vs lg ps i n : msimrel Ds As ts (mkmnet ds cs [] []) (mkmref T vs [] [] lg ps) ->
  nth_error vs i = Some (mkmcli n false None) ->
  msimrel Ds As (put_nth i (tid_after (nth i ts 0) n) ts) (mkmnet ds cs [] []) (mkmref T (put_nth i (mkmcli 0 false None) vs) [] [] [] []).
Proof.
  intros [Ht Ha Hn Hds Hdd Hdv Hst Hc Hr Hx] E. cbn [y_devs y_clis y_reqs y_anss z_stores z_clis z_reqs z_anss] in *.
  destruct Hc as (L1 & L2 & Hc). assert (Li : (i < length ts)%nat) by (rewrite <- L2; exact (nth_error_len _ _ _ E)).
  constructor; cbn [y_devs y_clis y_reqs y_anss z_stores z_clis z_reqs z_anss]; try assumption; try constructor.
  - rewrite Forall_forall in Ht |- *. intros t I. apply In_nth_error in I. destruct I as (j & I). destruct (Nat.eq_dec j i) as [->|N].
    + rewrite nth_put_same in I by exact Li. assert (t = tid_after (nth i ts 0) n) as -> by congruence. apply tid_after_range, Ht, nth_In. exact Li.
    + rewrite nth_put_other in I by assumption. apply Ht. exact (nth_error_In _ _ I).
  - rewrite put_nth_length by exact Li. exact L1.
  - rewrite !put_nth_length by congruence. split; [exact L2|]. intros j c v Ec Ev. rewrite nth_put_ts by exact Li. destruct (Nat.eqb_spec j i) as [->|N].
    + rewrite nth_put_same in Ev by congruence. assert (v = mkmcli 0 false None) as -> by congruence. destruct (Hc i c _ Ec E) as [Q R O T0 N B C]. constructor; try assumption.
      * cbn. lia.
      * destruct C as (l & C1 & C2 & _). exists l. split; [exact C1|]. split; [exact C2|]. discriminate.
    + rewrite nth_put_other in Ev by (try exact N; congruence). exact (Hc j c v Ec Ev).
Qed.
Lemma m_post_frame (PS : PySet) ds cs rs xs i p code k : mnet_step (mkmnet ds cs rs xs) (MPost i p code k) =
  (let '(mkmnet ds1 cs1 rs1 xs1, o) := mnet_step (mkmnet ds cs rs []) (MPost i p code k) in (mkmnet ds1 cs1 rs1 (xs ++ xs1), o)).
Proof.
  cbn [mnet_step]. destruct (nth_error cs i) as [c|]; [|rewrite app_nil_r; reflexivity]. destruct (y_busy c); [rewrite app_nil_r; reflexivity|].
  destruct (post_begin (y_os c) (y_tr c) (y_node c) (request code k) p) as [[[s1 t1] m1] [[|]|e]]; rewrite app_nil_r; reflexivity.
Qed.
(** The answer of the first call is returned for the 65536th. *)
Lemma m_wrap_last (PS : PySet) Ds As ts x i n vs T lg ps an code a p' code' k' :
  msimrel Ds As ts x (mkmref T vs [] [(mktag i 1, (an, (code, a)))] lg ps) ->
  nth_error vs i = Some (mkmcli n false None) -> Z.of_nat n = 65535 -> post_ok code' k' -> dest_addr p' <> None ->
  exists x', mnet_run x [MPost i p' code' k'; MAnswer 0; MReturn i] = (x', [m_returned ts (mktag i 1, Some (an, (code, a)))]).
Proof.
  intros Sm E En P Dp. destruct x as [ds cs rs xs]. pose proof Sm as [Ht Ha Hn Hds Hdd Hdv Hst Hc Hr Hx]. cbn [y_devs y_clis y_reqs y_anss z_stores z_clis z_reqs z_anss] in *.
  assert (rs = []) as -> by (inversion Hr; reflexivity).
  destruct xs as [|[[d0 i0] b] xs]; [inversion Hx|]. assert (xs = []) as -> by (inversion Hx as [|? ? ? ? ? X]; inversion X; reflexivity).
  assert (An : mansrel Ds As ts vs (d0, i0, b) (mktag i 1, (an, (code, a)))) by (inversion Hx; assumption). clear Hx.
  assert (Sm0 : msimrel Ds As ts (mkmnet ds cs [] []) (mkmref T vs [] [] lg ps)) by (constructor; cbn; try assumption; constructor).
  pose proof (m_rebase _ _ _ _ _ _ _ _ _ _ _ Sm0 E) as S1. set (ts' := put_nth i (tid_after (nth i ts 0) n) ts) in *. set (vs' := put_nth i (mkmcli 0 false None) vs) in *.
  assert (Lv : (i < length vs)%nat) by exact (nth_error_len _ _ _ E). assert (Lt : (i < length ts)%nat) by (destruct Hc as (_ & L2 & _); congruence).
  assert (E' : nth_error vs' i = Some (mkmcli 0 false None)) by (apply nth_put_same; exact Lv). assert (Lv' : (i < length vs')%nat) by exact (nth_error_len _ _ _ E').
  assert (T0 : 0 <= nth i ts 0 <= 65535) by (rewrite Forall_forall in Ht; apply Ht, nth_In; exact Lt).
  assert (Tt : tid_after (nth i ts' 0) 1 = tid_after (nth i ts 0) 1).
  { unfold ts'. rewrite nth_put_ts, Nat.eqb_refl by exact Lt. exact (wrap_tid _ _ T0 En). }
  destruct (msim_step PS Ds As ts' _ _ (MPost i p' code' k') S1) as (x2 & o2 & r2 & N2 & F2 & S2).
  { split; [exact P|]. split; [exact Dp|]. cbn [z_clis]. rewrite E'. cbn. lia. }
  cbn [mref_step] in F2. rewrite E' in F2. destruct (dest_addr p') as [an'|]; [|contradiction]. cbn [z_busy z_num app] in F2.
  assert (o2 = []) as -> by congruence.
  set (rq := match T an' with Some _ => [(mktag i 1%nat, (an', (code', k')))] | None => [] end) in *.
  assert (Er : r2 = mkmref T (put_nth i (mkmcli 1 true None) vs') rq [] [] [(mktag i 1%nat, (an', (code', k')))]) by exact (eq_sym (f_equal fst F2)). subst r2. clear F2.
  set (vs2 := put_nth i (mkmcli 1 true None) vs') in *.
  assert (E2 : nth_error vs2 i = Some (mkmcli 1 true None)) by (apply nth_put_same; exact Lv').
  destruct x2 as [ds2 cs2 rs2 xs2]. pose proof S2 as [Ht2 Ha2 Hn2 Hds2 Hdd2 Hdv2 Hst2 Hc2 Hr2 Hx2]. cbn [y_devs y_clis y_reqs y_anss z_stores z_clis z_reqs z_anss] in *.
  assert (xs2 = []) as -> by (inversion Hx2; reflexivity).
  cbn [mnet_run]. rewrite m_post_frame, N2. rewrite app_nil_r. cbn [map].
  assert (S3 : msimrel Ds As ts' (mkmnet ds2 cs2 rs2 [(d0, i0, b)]) (mkmref T vs2 rq [(mktag i 1, (an, (code, a)))] [] [(mktag i 1%nat, (an', (code', k')))])).
  { constructor; cbn [y_devs y_clis y_reqs y_anss z_stores z_clis z_reqs z_anss]; try assumption. constructor; [|constructor].
    destruct An as (I0 & D0 & ac & (M1 & _) & An). cbn [g_cli g_num fst snd] in *. split; [exact I0|]. split; [exact D0|]. exists ac. split.
    - split; [exact M1|]. exists (mkmcli 1 true None). split; [exact E2|]. cbn. lia.
    - cbn [g_cli g_num]. rewrite Tt. exact An. }
  destruct (msim_step PS Ds As ts' _ _ (MAnswer 0) S3 Logic.I) as (x4 & o4 & r4 & N4 & F4 & S4). rewrite N4.
  cbn [mref_step nth_error g_cli] in F4. rewrite E2 in F4. cbn [z_busy z_num z_got g_num Nat.eqb andb] in F4.
  assert (o4 = []) as -> by congruence.
  assert (Er4 : r4 = mkmref T (put_nth i (mkmcli 1 true (Some (an, (code, a)))) vs2) rq [] [] [(mktag i 1%nat, (an', (code', k')))]).
  { unfold drop_nth in F4. cbn [firstn skipn app] in F4. exact (eq_sym (f_equal fst F4)). }
  subst r4. clear F4.
  destruct (msim_step PS Ds As ts' _ _ (MReturn i) S4 Logic.I) as (x5 & o5 & r5 & N5 & F5 & S5). rewrite N5.
  cbn [mref_step] in F5. rewrite nth_put_same in F5 by exact (nth_error_len _ _ _ E2). cbn [z_busy z_num z_got] in F5.
  assert (o5 = [(mktag i 1%nat, Some (an, (code, a)))]) as -> by exact (eq_sym (f_equal snd F5)).
  exists x5. cbn [map app m_returned]. rewrite Tt. reflexivity.
Qed.

Lemma L_C97_wraparound_refuted : forall (PS : PySet) T x i c p an St code k a p' an' code' k' n,
  multi_ready T x -> nth_error (y_clis x) i = Some c -> dest_addr p = Some an -> T an = Some St ->
  post_ok code k -> call_ok St code k -> store_reply St code k = Some a ->
  post_ok code' k' -> dest_addr p' = Some an' -> an' <> an -> Z.of_nat n = 65534 ->
  let before := [MPost i p code k; MServe 0; MReturn i] ++ concat (repeat [MPost i p code k; MLoseRequest 0; MReturn i] n) in
  let last := [MPost i p' code' k'; MAnswer 0; MReturn i] in
  mrun_ok (mref_start T (length (y_clis x))) before /\
  exists x' m, mnet_run x (before ++ last) = (x', repeat (i, None) (S n) ++ [(i, Some m)]) /\
    (i, Some m) = m_returned (multi_tids x) (mktag i 1, Some (an, (code, a))) /\ m_from m = Some an /\ m_from m <> dest_addr p'.
Proof.
  intros PS T x i c p an St code k a p' an' code' k' n Re Ec Da Ta P1 C1 A1 P2 Da' Ne N before last. change (concat _) with (m_lost_calls n i p code k) in before.
  set (q := length (y_clis x)). set (r0 := mref_start T q).
  assert (Li : (i < q)%nat) by exact (nth_error_len _ _ _ Ec).
  assert (E0 : nth_error (repeat (mkmcli 0 false None) q) i = Some (mkmcli 0 false None)) by (apply nth_error_repeat; exact Li).
  assert (L0 : (i < length (repeat (mkmcli 0 false None) q))%nat) by (rewrite repeat_length; exact Li).
  set (vs := put_nth i (mkmcli 1 false None) (repeat (mkmcli 0 false None) q)).
  assert (Lv : (i < length vs)%nat) by (unfold vs; rewrite put_nth_length; exact L0).
  assert (Ev : nth_error vs i = Some (mkmcli 1 false None)) by (apply nth_put_same; exact L0).
  set (t := (mktag i 1, (an, (code, k)))). set (T1 := set_store an (store_after St code k) T).
  assert (F1 : mref_run r0 [MPost i p code k; MServe 0; MReturn i] = (mkmref T1 vs [] [(mktag i 1, (an, (code, a)))] [t] [t], [(mktag i 1%nat, None)])).
  { unfold r0, mref_start. cbn [mref_run mref_step]. rewrite E0, Da, Ta. cbn [z_busy z_num app mref_step nth_error]. rewrite Ta, A1. cbn [app mref_step mref_run]. unfold drop_nth. cbn [firstn skipn app]. rewrite nth_put_same by exact L0. cbn [z_busy z_num z_got app].
    rewrite put_put by exact L0. reflexivity. }
  assert (O1 : mrun_ok r0 [MPost i p code k; MServe 0; MReturn i]).
  { cbn [mrun_ok mevent_ok]. unfold r0 at 1, mref_start. cbn [z_clis]. rewrite E0. cbn [z_num]. split; [split; [exact P1|split; [rewrite Da; discriminate|lia]]|].
    unfold r0, mref_start. cbn [mref_step]. rewrite E0, Da, Ta. cbn [z_busy z_num app fst z_reqs nth_error z_stores]. rewrite Ta. auto. }
  assert (Ta1 : T1 an = Some (store_after St code k)) by (unfold T1, set_store; rewrite aeqb_refl; reflexivity).
  destruct (mref_lost n i p an _ code k T1 vs [(mktag i 1%nat, (an, (code, a)))] [t] [t] 1 Lv Ev P1 Da Ta1) as (o2 & ps2 & F2 & O2 & K2); [lia|].
  assert (OkB : mrun_ok r0 before) by (apply mrun_ok_app; [exact O1|rewrite F1; exact K2]).
  assert (RB : mref_run r0 before = (mkmref T1 (put_nth i (mkmcli (1 + n) false None) vs) [] [(mktag i 1%nat, (an, (code, a)))] [t] ps2, map (fun j => (mktag i j, None)) (seq 1 (S n)))).
  { unfold before. rewrite mref_run_app, F1, F2, O2. reflexivity. }
  split; [exact OkB|].
  destruct (msim_run PS _ _ _ before x _ (msim_start T x Re) OkB) as (x1 & o1 & r1 & N1 & G1 & S1). fold q r0 in G1. rewrite RB in G1.
  assert (Er : r1 = mkmref T1 (put_nth i (mkmcli (1 + n) false None) vs) [] [(mktag i 1%nat, (an, (code, a)))] [t] ps2) by exact (eq_sym (f_equal fst G1)).
  assert (Eo : o1 = map (fun j => (mktag i j, None)) (seq 1 (S n))) by exact (eq_sym (f_equal snd G1)). subst r1 o1. clear G1.
  destruct (m_wrap_last PS _ _ _ x1 i (1 + n) _ _ _ _ an code a p' code' k' S1) as (x' & N2); [apply nth_put_same; exact Lv|lia|exact P2|rewrite Da'; discriminate|].
  destruct a as [[[e pp] ss] gs]. exists x'. eexists. split; [|split; [reflexivity|split; [reflexivity|cbn [m_from]; rewrite Da'; congruence]]].
  rewrite mnet_run_app, N1. unfold last. rewrite N2. f_equal. f_equal. rewrite map_map. cbn [m_returned option_map].
  generalize 1%nat. generalize (S n). intros w. induction w as [|w IH]; intros s; [reflexivity|]. cbn [seq map repeat]. rewrite IH. reflexivity.
Qed.
