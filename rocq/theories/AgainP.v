(** Lemmas for C95. *)
From Verif Require Import PyBase MsgM PropM ObjM NodeM LocalM CtrlM SpecWire SpecReq SpecNode SpecLocal SpecSrv SpecCtrl SpecEnd SpecSess SpecMany SpecAgain ManyP.
From Verif Require Import SpecReq.
From Coq Require Import Permutation.
Local Open Scope nat_scope.

(** ** The network behaves as the reference *)
Lemma Forall2_copy {A B} (R : A -> B -> Prop) l m j : Forall2 R l m -> Forall2 R (copy_nth j l) (copy_nth j m).
Proof.
  intros F. unfold copy_nth. apply Forall2_app; [exact F|]. pose proof (Forall2_nth R l m F j) as H. destruct (nth_error l j), (nth_error m j); try contradiction; [|constructor]. constructor; [exact H|constructor].
Qed.
Lemma sim_step2 (PS : PySet) wd jd an As ts x r e : quiet wd -> reliable wd -> simrel jd an As ts x r -> event_ok2 r e ->
  exists x' o r', net_step2 wd jd an x e = (x', map (as_returned an ts) o) /\ ref_step2 r e = (r', o) /\ simrel jd an As ts x' r'.
Proof.
  intros Qd Rd Sm Ok. destruct e as [e|j|j]; cbn [net_step2 ref_step2].
  - exact (sim_step PS wd jd an As ts x r e Qd Rd Sm Ok).
  - destruct Sm as [Ts As' Nd Cs Rs Xs Od Cd Mi So]. eexists. exists []. eexists. split; [reflexivity|]. split; [reflexivity|]. constructor; cbn [w_dev w_dtr w_clis w_reqs w_anss v_store v_clis v_reqs v_anss]; try assumption. now apply Forall2_copy.
  - destruct Sm as [Ts As' Nd Cs Rs Xs Od Cd Mi So]. eexists. exists []. eexists. split; [reflexivity|]. split; [reflexivity|]. constructor; cbn [w_dev w_dtr w_clis w_reqs w_anss v_store v_clis v_reqs v_anss]; try assumption. now apply Forall2_copy.
Qed.
Lemma sim_run2 (PS : PySet) wd jd an As ts : quiet wd -> reliable wd -> forall l x r, simrel jd an As ts x r -> run_ok2 r l ->
  exists x' o r', net_run2 wd jd an x l = (x', map (as_returned an ts) o) /\ ref_run2 r l = (r', o) /\ simrel jd an As ts x' r'.
Proof.
  intros Qd Rd l. induction l as [|e l IH]; intros x r Sm Ok.
  - exists x, [], r. auto.
  - destruct Ok as (Oe & Ol). destruct (sim_step2 PS wd jd an As ts x r e Qd Rd Sm Oe) as (x1 & o1 & r1 & E1 & F1 & S1). rewrite F1 in Ol.
    destruct (IH x1 r1 S1 Ol) as (x2 & o2 & r2 & E2 & F2 & S2). exists x2, (o1 ++ o2), r2. cbn [net_run2 ref_run2]. rewrite E1, E2, F1, F2, map_app. auto.
Qed.
Lemma L_C95_as_store_partial : forall (PS : PySet) wd jd an St x l,
  quiet wd -> reliable wd -> all_ready jd an St x -> run_ok2 (ref_start St (length (w_clis x))) l ->
  exists x' o r', net_run2 wd jd an x l = (x', map (as_returned an (start_tids x)) o) /\
  ref_run2 (ref_start St (length (w_clis x))) l = (r', o) /\ mirrors (w_dev x') (v_store r').
Proof.
  intros PS wd jd an St x l Qd Rd Re Ok. destruct (sim_run2 PS wd jd an _ _ Qd Rd l x _ (sim_start jd an St x Re) Ok) as (x' & o & r' & E & F & Sm).
  exists x', o, r'. split; [exact E|]. split; [exact F|]. exact (sr_mi _ _ _ _ _ _ Sm).
Qed.

(** ** The order of the treatments *)
Record inv2 (St : store) (r : rnet) (o : list (tag * option (Z * answer))) : Prop := mkinv2 {
  jv_st : v_store r = store_run St (map snd (v_log r));
  jv_ps : forall t c, In (t, c) (v_posts r) -> exists v, nth_error (v_clis r) (g_cli t) = Some v /\ (0 < g_num t <= v_num v)%nat;
  jv_np : NoDup (map fst (v_posts r));
  jv_in : incl (v_log r ++ v_reqs r) (v_posts r);
  jv_an : forall t code a, In (t, (code, a)) (v_anss r) -> placed St (v_log r) t code a;
  jv_go : forall i v code a, nth_error (v_clis r) i = Some v -> v_got v = Some (code, a) -> placed St (v_log r) (mktag i (v_num v)) code a;
  jv_ou : forall t code a, In (t, Some (code, a)) o -> placed St (v_log r) t code a;
  jv_on : NoDup (map fst o);
  jv_ob : forall t x, In (t, x) o -> exists v, nth_error (v_clis r) (g_cli t) = Some v /\ g_num t <= v_num v /\ (v_busy v = true -> g_num t < v_num v) }.
Lemma copy_incl {A} j (l : list A) : incl (copy_nth j l) l.
Proof. intros x H. unfold copy_nth in H. apply in_app_or in H as [H|H]; [exact H|]. destruct (nth_error l j) as [a|] eqn:E; [|contradiction]. destruct H as [<-|[]]. exact (nth_error_In _ _ E). Qed.
Lemma NoDup_snoc {A} (l : list A) a : NoDup l -> ~ In a l -> NoDup (l ++ [a]).
Proof. intros N H. apply (Permutation_NoDup (Permutation_cons_append _ _)). now constructor. Qed.

Lemma inv2_step St r o e r' o' : inv2 St r o -> ref_step2 r e = (r', o') ->
  inv2 St r' (o ++ o') /\ (exists ps, v_posts r' = v_posts r ++ ps) /\ (exists lg, v_log r' = v_log r ++ lg).
Proof.
  intros I. pose proof I as [Ist Ips Inp Iin Ian Igo Iou Ion Iob]. destruct r as [st vs rs xs lg ps]. cbn [v_store v_clis v_reqs v_anss v_log v_posts] in *.
  assert (Stay : forall r0, r0 = mkrnet st vs rs xs lg ps -> inv2 St r0 (o ++ []) /\ (exists p, v_posts r0 = ps ++ p) /\ (exists g, v_log r0 = lg ++ g)).
  { intros r0 ->. rewrite app_nil_r. split; [exact I|]. split; exists []; rewrite app_nil_r; reflexivity. }
  destruct e as [[i code k|j|j|j|j|i]|j|j]; cbn [ref_step2 ref_step v_store v_clis v_reqs v_anss v_log v_posts]; intros E.
  - destruct (nth_error vs i) as [v|] eqn:Ev; [|injection E as <- <-; apply Stay; reflexivity]. destruct (v_busy v) eqn:Bv; [injection E as <- <-; apply Stay; reflexivity|]. injection E as <- <-. pose proof (nth_error_len _ _ _ Ev) as Lv.
    set (t := mktag i (S (v_num v))). assert (Fresh : ~ In t (map fst ps)).
    { intros H. apply in_map_iff in H as ((t1 & c) & Et & H). cbn in Et. subst t1. destruct (Ips _ _ H) as (v1 & V1 & N). cbn [t g_cli g_num] in *. assert (v1 = v) by congruence. subst v1. lia. }
    rewrite app_nil_r. split; [|split; [eexists; reflexivity|exists []; rewrite app_nil_r; reflexivity]]. constructor; cbn [v_store v_clis v_reqs v_anss v_log v_posts]; try assumption.
    + intros t1 c H. apply in_app_or in H as [H|[H|[]]].
      * destruct (Ips _ _ H) as (v1 & V1 & N). destruct (Nat.eq_dec (g_cli t1) i) as [Ei|Ni]; [rewrite Ei in *; rewrite nth_put_same by exact Lv; eexists; split; [reflexivity|]; assert (v1 = v) by congruence; subst v1; cbn [v_num]; lia|].
        rewrite nth_put_other by assumption. eauto.
      * assert (t1 = t) as -> by congruence. cbn [t g_cli g_num]. rewrite nth_put_same by exact Lv. eexists. split; [reflexivity|]. cbn [v_num]. lia.
    + rewrite map_app. apply NoDup_snoc; assumption.
    + intros y H. rewrite app_assoc in H. apply in_app_or in H as [H|H]; apply in_or_app; [left; apply Iin; exact H|right; exact H].
    + intros j w c a W G. destruct (Nat.eq_dec j i) as [->|Nj]; [rewrite nth_put_same in W by exact Lv; assert (w = mkrcli (S (v_num v)) true None) by congruence; subst w; discriminate|]. rewrite nth_put_other in W by assumption. exact (Igo _ _ _ _ W G).
    + intros t1 x H. destruct (Iob _ _ H) as (v1 & V1 & N1 & N2). destruct (Nat.eq_dec (g_cli t1) i) as [Ei|Ni]; [|rewrite nth_put_other by assumption; eauto].
      rewrite Ei in *. rewrite nth_put_same by exact Lv. eexists. split; [reflexivity|]. assert (v1 = v) by congruence. subst v1. cbn [v_num v_busy]. split; [lia|intros _; lia].
  - destruct (nth_error rs j) as [[t [code k]]|] eqn:Ej; [|injection E as <- <-; apply Stay; reflexivity]. injection E as <- <-. destruct (drop_split _ _ _ Ej) as (l1 & l2 & Ers & Edr). subst rs.
    assert (Pm : Permutation (lg ++ l1 ++ (t, (code, k)) :: l2) ((lg ++ [(t, (code, k))]) ++ l1 ++ l2)).
    { rewrite <- app_assoc. apply Permutation_app_head. cbn [app]. symmetry. apply Permutation_middle. }
    rewrite app_nil_r. split; [|split; [exists []; rewrite app_nil_r; reflexivity|eexists; reflexivity]]. constructor; cbn [v_store v_clis v_reqs v_anss v_log v_posts]; try assumption.
    + rewrite map_app. cbn [map snd]. rewrite store_run_snoc, <- Ist. reflexivity.
    + rewrite Edr. intros y H. apply Iin. eapply Permutation_in; [symmetry; exact Pm|exact H].
    + intros t1 c a H. apply in_app_or in H as [H|H]; [apply placed_app; apply Ian; exact H|]. destruct (store_reply st code k) as [b|] eqn:Sr; [|contradiction]. destruct H as [H|[]]. assert (t1 = t /\ c = code /\ a = b) as (-> & -> & ->) by (repeat split; congruence).
      exists lg, k, []. split; [reflexivity|]. rewrite <- Ist. exact Sr.
    + intros i w c a W G. apply placed_app. exact (Igo _ _ _ _ W G).
    + intros t1 c a H. apply placed_app. exact (Iou _ _ _ H).
  - destruct (nth_error xs j) as [[t [code a]]|] eqn:Ej; [|injection E as <- <-; apply Stay; reflexivity]. destruct (nth_error vs (g_cli t)) as [v|] eqn:Ev; [|injection E as <- <-; apply Stay; reflexivity]. injection E as <- <-. pose proof (nth_error_len _ _ _ Ev) as Lv.
    rewrite app_nil_r. split; [|split; exists []; rewrite app_nil_r; reflexivity]. set (hit := v_busy v && (v_num v =? g_num t)%nat && match v_got v with None => true | Some _ => false end).
    assert (Hh : hit = true -> v_num v = g_num t /\ v_busy v = true).
    { unfold hit; intros H; apply andb_prop in H as (H & _); apply andb_prop in H as (H1 & H). split; [apply Nat.eqb_eq; exact H|exact H1]. }
    constructor; cbn [v_store v_clis v_reqs v_anss v_log v_posts]; try assumption.
    + intros t1 c H. destruct (Ips _ _ H) as (v1 & V1 & N). destruct hit; [|eauto]. destruct (Nat.eq_dec (g_cli t1) (g_cli t)) as [Ei|Ni]; [rewrite Ei in *; rewrite nth_put_same by exact Lv; eexists; split; [reflexivity|]; assert (v1 = v) by congruence; subst v1; exact N|].
      rewrite nth_put_other by assumption. eauto.
    + intros t1 c b H. apply Ian. exact (drop_incl j xs _ H).
    + intros i w c b W G. destruct hit; [|exact (Igo _ _ _ _ W G)]. destruct (Nat.eq_dec i (g_cli t)) as [->|Ni]; [|rewrite nth_put_other in W by assumption; exact (Igo _ _ _ _ W G)].
      rewrite nth_put_same in W by exact Lv. assert (w = mkrcli (v_num v) true (Some (code, a))) by congruence. subst w. cbn [v_num v_got] in *. assert (c = code /\ b = a) as (-> & ->) by (split; congruence).
      rewrite (proj1 (Hh eq_refl)). replace (mktag (g_cli t) (g_num t)) with t by (destruct t; reflexivity). apply Ian. apply nth_error_In in Ej. exact Ej.
    + intros t1 x H. destruct (Iob _ _ H) as (v1 & V1 & N1 & N2). destruct hit; [|eauto]. destruct (Nat.eq_dec (g_cli t1) (g_cli t)) as [Ei|Ni]; [|rewrite nth_put_other by assumption; eauto].
      rewrite Ei in *. rewrite nth_put_same by exact Lv. eexists. split; [reflexivity|]. assert (v1 = v) by congruence. subst v1. cbn [v_num v_busy]. split; [exact N1|]. intros _. apply N2. apply Hh. reflexivity.
  - injection E as <- <-. rewrite app_nil_r. split; [|split; exists []; rewrite app_nil_r; reflexivity]. constructor; cbn [v_store v_clis v_reqs v_anss v_log v_posts]; try assumption.
    intros y H. apply Iin. apply in_app_or in H as [H|H]; apply in_or_app; [now left|right; exact (drop_incl _ _ _ H)].
  - injection E as <- <-. rewrite app_nil_r. split; [|split; exists []; rewrite app_nil_r; reflexivity]. constructor; cbn [v_store v_clis v_reqs v_anss v_log v_posts]; try assumption.
    intros t1 c b H. apply Ian. exact (drop_incl j xs _ H).
  - destruct (nth_error vs i) as [v|] eqn:Ev; [|injection E as <- <-; apply Stay; reflexivity]. destruct (v_busy v) eqn:Bv; [|injection E as <- <-; apply Stay; reflexivity]. injection E as <- <-. pose proof (nth_error_len _ _ _ Ev) as Lv.
    split; [|split; exists []; rewrite app_nil_r; reflexivity]. constructor; cbn [v_store v_clis v_reqs v_anss v_log v_posts]; try assumption.
    + intros t1 c H. destruct (Ips _ _ H) as (v1 & V1 & N). destruct (Nat.eq_dec (g_cli t1) i) as [Ei|Ni]; [rewrite Ei in *; rewrite nth_put_same by exact Lv; eexists; split; [reflexivity|]; assert (v1 = v) by congruence; subst v1; exact N|].
      rewrite nth_put_other by assumption. eauto.
    + intros j w c b W G. destruct (Nat.eq_dec j i) as [->|Ni]; [|rewrite nth_put_other in W by assumption; exact (Igo _ _ _ _ W G)]. rewrite nth_put_same in W by exact Lv. assert (w = mkrcli (v_num v) false None) by congruence. subst w. discriminate.
    + intros t c a H. apply in_app_or in H as [H|[H|[]]]; [exact (Iou _ _ _ H)|]. assert (t = mktag i (v_num v)) as -> by congruence. apply (Igo i v c a Ev). congruence.
    + rewrite map_app. apply NoDup_snoc; [exact Ion|]. cbn [fst]. intros H. apply in_map_iff in H as ((t1 & x) & Et & H). cbn [fst] in Et. subst t1. destruct (Iob _ _ H) as (v1 & V1 & N1 & N2). cbn [g_cli g_num] in *. assert (v1 = v) by congruence. subst v1. specialize (N2 Bv). lia.
    + intros t1 x H. apply in_app_or in H as [H|[H|[]]].
      * destruct (Iob _ _ H) as (v1 & V1 & N1 & N2). destruct (Nat.eq_dec (g_cli t1) i) as [Ei|Ni]; [|rewrite nth_put_other by assumption; eauto].
        rewrite Ei in *. rewrite nth_put_same by exact Lv. eexists. split; [reflexivity|]. assert (v1 = v) by congruence. subst v1. cbn [v_num v_busy]. split; [exact N1|discriminate].
      * assert (t1 = mktag i (v_num v)) as -> by congruence. cbn [g_cli g_num]. rewrite nth_put_same by exact Lv. eexists. split; [reflexivity|]. cbn [v_num v_busy]. split; [lia|discriminate].
  - injection E as <- <-. rewrite app_nil_r. split; [|split; exists []; rewrite app_nil_r; reflexivity]. constructor; cbn [v_store v_clis v_reqs v_anss v_log v_posts]; try assumption.
    intros y H. apply Iin. apply in_app_or in H as [H|H]; apply in_or_app; [now left|right; exact (copy_incl _ _ _ H)].
  - injection E as <- <-. rewrite app_nil_r. split; [|split; exists []; rewrite app_nil_r; reflexivity]. constructor; cbn [v_store v_clis v_reqs v_anss v_log v_posts]; try assumption.
    intros t1 c b H. apply Ian. exact (copy_incl j xs _ H).
Qed.
Lemma inv2_run St l : forall r o r' o', inv2 St r o -> ref_run2 r l = (r', o') ->
  inv2 St r' (o ++ o') /\ (exists ps, v_posts r' = v_posts r ++ ps) /\ (exists lg, v_log r' = v_log r ++ lg).
Proof.
  induction l as [|e l IH]; intros r o r' o' I E; cbn [ref_run2] in E.
  - injection E as <- <-. rewrite app_nil_r. split; [exact I|]. split; exists []; rewrite app_nil_r; reflexivity.
  - destruct (ref_step2 r e) as [r1 o1] eqn:E1. destruct (ref_run2 r1 l) as [r2 o2] eqn:E2. injection E as <- <-.
    destruct (inv2_step St r o e r1 o1 I E1) as (I1 & (p1 & P1) & (g1 & G1)). destruct (IH r1 _ r2 o2 I1 E2) as (I2 & (p2 & P2) & (g2 & G2)).
    rewrite app_assoc. split; [exact I2|]. split; [exists (p1 ++ p2); rewrite P2, P1, app_assoc; reflexivity|exists (g1 ++ g2); rewrite G2, G1, app_assoc; reflexivity].
Qed.
Lemma inv2_start St n : inv2 St (ref_start St n) [].
Proof.
  constructor; cbn; try (now constructor); try contradiction; [intros x []|]. intros i v code a E. assert (v = mkrcli 0 false None) as -> by (apply nth_error_In in E; exact (repeat_spec _ _ _ E)). discriminate.
Qed.
Lemma L_C95_order : forall St n l r o, ref_run2 (ref_start St n) l = (r, o) ->
  v_store r = store_run St (map snd (v_log r)) /\
  NoDup (map fst (v_posts r)) /\ incl (v_log r) (v_posts r) /\ NoDup (map fst o) /\
  forall t code a, In (t, Some (code, a)) o ->
    exists l1 k l2, v_log r = l1 ++ (t, (code, k)) :: l2 /\ store_reply (store_run St (map snd l1)) code k = Some a.
Proof.
  intros St n l r o E. destruct (inv2_run St l _ _ _ _ (inv2_start St n) E) as ([Ist Ips Inp Iin Ian Igo Iou Ion Iob] & _). cbn [app] in *.
  split; [exact Ist|]. split; [exact Inp|]. split; [intros y H; apply Iin; apply in_or_app; now left|]. split; [exact Ion|exact Iou].
Qed.

(** ** Calls that may be treated again *)
Lemma same_refl S : same_store S S.
Proof. intros i. destruct (S i); auto. Qed.
Lemma same_sym S S' : same_store S S' -> same_store S' S.
Proof. intros H i. specialize (H i). destruct (S i), (S' i); auto. Qed.
Lemma same_trans S S' S'' : same_store S S' -> same_store S' S'' -> same_store S S''.
Proof. intros H H' i. specialize (H i). specialize (H' i). destruct (S i), (S' i), (S'' i); try contradiction; auto. intros c. now rewrite H. Qed.
Lemma pokes_ext ps : forall t t', (forall c, t c = t' c) -> forall c, pokes t ps c = pokes t' ps c.
Proof. induction ps as [|p ps IH]; intros t t' H c; cbn [pokes fold_left]; [apply H|]. apply IH. intros c'. unfold poke. now rewrite H. Qed.
Lemma after_ext k t t' : (forall c, t c = t' c) -> forall c, after t k c = after t' k c.
Proof. intros H. destruct k; cbn [after]; [exact H|..]; now apply pokes_ext. Qed.
Lemma step_ext S S' code k : same_store S S' -> same_store (store_after S code k) (store_after S' code k).
Proof.
  intros H. unfold store_after. pose proof (H code) as Hc. destruct (S code) as [t|], (S' code) as [t'|]; try contradiction; [|exact H]. intros i. destruct (i =? code)%Z; [now apply after_ext|exact (H i)].
Qed.
Lemma run_ext l : forall S S', same_store S S' -> same_store (store_run S l) (store_run S' l).
Proof. induction l as [|[code k] l IH]; intros S S' H; cbn [store_run]; [exact H|]. apply IH. now apply step_ext. Qed.
Lemma run_app l m : forall S, store_run S (l ++ m) = store_run (store_run S l) m.
Proof. induction l as [|[code k] l IH]; intros S; [reflexivity|]. cbn [app store_run]. apply IH. Qed.
Lemma reply_ext S S' code k : same_store S S' -> store_reply S code k = store_reply S' code k.
Proof.
  intros H. unfold store_reply. specialize (H code). destruct (S code) as [t|], (S' code) as [t'|]; try contradiction; [|reflexivity].
  assert (R : forall c, readable t c = readable t' c) by (intros c; unfold readable; now rewrite H). assert (W : forall c, writeable t c = writeable t' c) by (intros c; unfold writeable; now rewrite H).
  assert (K : forall c, known t c = known t' c) by (intros c; unfold known; now rewrite H). assert (E : forall p, echo t p = echo t' p) by (intros p; unfold echo; now rewrite W, K).
  assert (FW : forall ps, forallb (fun p => writeable t (p_code p)) ps = forallb (fun p => writeable t' (p_code p)) ps) by (induction ps as [|p ps IH]; [reflexivity|]; cbn [forallb]; now rewrite W, IH).
  assert (FR : forall cs, forallb (readable t) cs = forallb (readable t') cs) by (induction cs as [|c cs IH]; [reflexivity|]; cbn [forallb]; now rewrite R, IH).
  assert (M : forall ps, map (echo t) ps = map (echo t') ps) by (intros ps; apply map_ext; exact E).
  assert (Sh : forall u u' : table, (forall c, u c = u' c) -> forall cs, map (show u) cs = map (show u') cs) by (intros u u' U cs; apply map_ext; intros c; unfold show; now rewrite U).
  destruct k as [cs|ps|ps|ps cs]; cbn [reply].
  - now rewrite FR, (Sh t t' H).
  - now rewrite FW, M.
  - now rewrite FW, M.
  - now rewrite FW, FR, M, (Sh _ _ (pokes_ext ps t t' H)).
Qed.
Lemma idle_step S code k : codes_written k = [] -> same_store (store_after S code k) S.
Proof.
  intros W. unfold store_after. destruct (S code) as [t|] eqn:E; [|apply same_refl]. intros i. destruct (Z.eqb_spec i code) as [->|_]; [|destruct (S i); auto]. rewrite E.
  destruct k as [cs|ps|ps|ps cs]; cbn [after codes_written] in *; [reflexivity|..]; apply map_eq_nil in W; subst; reflexivity.
Qed.
(** The calls of [lg] at the places chosen by [f]. *)
Fixpoint keep (f : nat -> bool) (n : nat) (lg : list (tag * (Z * call))) : list (tag * (Z * call)) :=
  match lg with [] => [] | x :: r => if f n then x :: keep f (S n) r else keep f (S n) r end.
Lemma keep_app f a b : forall n, keep f n (a ++ b) = keep f n a ++ keep f (n + length a) b.
Proof.
  induction a as [|x a IH]; intros n; cbn [app keep length]; [now rewrite Nat.add_0_r|]. rewrite IH. replace (S n + length a) with (n + S (length a)) by lia. destruct (f n); reflexivity.
Qed.
Lemma keep_in f x lg : forall n, In x (keep f n lg) -> exists p, nth_error lg p = Some x /\ f (n + p) = true.
Proof.
  induction lg as [|y lg IH]; intros n H; cbn [keep] in H; [contradiction|].
  assert (R : In x (keep f (S n) lg) -> exists p, nth_error (y :: lg) p = Some x /\ f (n + p) = true).
  { intros H'. destruct (IH (S n) H') as (p & A & B). exists (S p). split; [exact A|]. now replace (n + S p) with (S n + p) by lia. }
  destruct (f n) eqn:F; [|now apply R]. destruct H as [->|H]; [|now apply R]. exists 0. split; [reflexivity|]. now rewrite Nat.add_0_r.
Qed.
Lemma keep_nodup f lg : forall n, (forall p q x y, nth_error lg p = Some x -> nth_error lg q = Some y -> fst x = fst y -> f (n + p) = true -> f (n + q) = true -> p = q) ->
  NoDup (map fst (keep f n lg)).
Proof.
  induction lg as [|y lg IH]; intros n H; cbn [keep]; [constructor|].
  assert (R : NoDup (map fst (keep f (S n) lg))).
  { apply IH. intros p q a b A B E Fp Fq. assert (S p = S q); [|lia]. apply (H (S p) (S q) a b A B E); now rewrite <- Nat.add_succ_comm. }
  destruct (f n) eqn:F; [|exact R]. cbn [map]. constructor; [|exact R]. intros I. apply in_map_iff in I as (x & Ex & I). destruct (keep_in f x lg (S n) I) as (p & A & B).
  assert (0 = S p); [|lia]. apply (H 0 (S p) y x eq_refl A (eq_sym Ex)); [now rewrite Nat.add_0_r|now rewrite <- Nat.add_succ_comm].
Qed.
Lemma keep_store f lg : forall n S, (forall p x, nth_error lg p = Some x -> f (n + p) = false -> codes_written (snd (snd x)) = []) ->
  same_store (store_run S (map snd (keep f n lg))) (store_run S (map snd lg)).
Proof.
  induction lg as [|[t [code k]] lg IH]; intros n S H; cbn [keep map]; [apply same_refl|].
  assert (R : forall S', same_store (store_run S' (map snd (keep f (Datatypes.S n) lg))) (store_run S' (map snd lg))).
  { intros S'. apply IH. intros p x A B. apply (H (Datatypes.S p) x A). now rewrite <- Nat.add_succ_comm. }
  cbn [snd]. destruct (f n) eqn:F; cbn [map store_run snd]; [apply R|]. eapply same_trans; [apply R|]. apply run_ext. apply same_sym, idle_step. apply (H 0 (t, (code, k)) eq_refl). now rewrite Nat.add_0_r.
Qed.
Definition tag_dec (a b : tag) : {a = b} + {a <> b}.
Proof. decide equality; apply Nat.eq_dec. Defined.
(** Where the returned answers come from. *)
Definition source (St : store) (lg : list (tag * (Z * call))) (pos : list (tag * nat)) (o : list (tag * option (Z * answer))) : Prop :=
  NoDup (map fst pos) /\ (forall t p, In (t, p) pos -> In t (map fst o) /\ exists c, nth_error lg p = Some (t, c)) /\
  forall t code a, In (t, Some (code, a)) o -> exists p k, In (t, p) pos /\ nth_error lg p = Some (t, (code, k)) /\ store_reply (store_run St (map snd (firstn p lg))) code k = Some a.
Lemma sources St lg o : NoDup (map fst o) -> (forall t code a, In (t, Some (code, a)) o -> placed St lg t code a) -> exists pos, source St lg pos o.
Proof.
  induction o as [|[t x] o IH]; intros N H.
  - exists []. split; [constructor|]. split; [intros t p []|intros t code a []].
  - cbn [map fst] in N. apply NoDup_cons_iff in N as (N1 & N2). destruct (IH N2 (fun t' c a I => H t' c a (or_intror I))) as (pos & P1 & P2 & P3).
    destruct x as [[code a]|].
    + destruct (H t code a (or_introl eq_refl)) as (l1 & k & l2 & L & R). exists ((t, length l1) :: pos).
      assert (E : nth_error lg (length l1) = Some (t, (code, k))) by (subst lg; rewrite nth_error_app2, Nat.sub_diag by lia; reflexivity).
      split; [cbn [map fst]; constructor; [|exact P1]; intros I; apply N1; apply in_map_iff in I as ((t' & p) & Et & I); cbn [fst] in Et; subst t'; apply (P2 t p I)|]. split.
      * intros t' p [Q|I]; [assert (t' = t /\ p = length l1) as (-> & ->) by (split; congruence); split; [now left|]; eauto|]. destruct (P2 t' p I) as (A & B). split; [now right|exact B].
      * intros t' c' a' [Q|I].
        -- assert (t' = t /\ c' = code /\ a' = a) as (-> & -> & ->) by (repeat split; congruence). exists (length l1), k. split; [now left|]. split; [exact E|]. subst lg. rewrite firstn_app, Nat.sub_diag, firstn_all. cbn [firstn]. now rewrite app_nil_r.
        -- destruct (P3 t' c' a' I) as (p & k' & A & B). exists p, k'. split; [now right|exact B].
    + exists pos. split; [exact P1|]. split; [intros t' p I; destruct (P2 t' p I) as (A & B); split; [now right|exact B]|]. intros t' c' a' [Q|I]; [congruence|]. now apply P3.
Qed.
Fixpoint place (t : tag) (pos : list (tag * nat)) : option nat :=
  match pos with [] => None | (t', p) :: r => if tag_dec t' t then Some p else place t r end.
Lemma place_in t pos p : place t pos = Some p -> In (t, p) pos.
Proof. induction pos as [|[t' q] pos IH]; cbn [place]; [discriminate|]. destruct (tag_dec t' t) as [->|_]; [intros E; left; congruence|intros E; right; now apply IH]. Qed.
Lemma in_place t pos p : NoDup (map fst pos) -> In (t, p) pos -> place t pos = Some p.
Proof.
  induction pos as [|[t' q] pos IH]; intros N I; [contradiction|]. cbn [map fst] in N. apply NoDup_cons_iff in N as (N1 & N2). cbn [place]. destruct I as [Q|I].
  - assert (t' = t /\ q = p) as (-> & ->) by (split; congruence). destruct (tag_dec t t); congruence.
  - destruct (tag_dec t' t) as [->|_]; [|now apply IH]. exfalso. apply N1. exact (in_map fst _ _ I).
Qed.
Definition chosen (lg : list (tag * (Z * call))) (pos : list (tag * nat)) (p : nat) : bool :=
  match nth_error lg p with
  | Some (t, _) => match place t pos with
                   | Some q => Nat.eqb p q
                   | None => if in_dec tag_dec t (map fst (firstn p lg)) then false else true
                   end
  | None => false
  end.
Lemma nth_firstn_in {A} (l : list A) p q x : nth_error l p = Some x -> p < q -> In x (firstn q l).
Proof.
  revert p q. induction l as [|y l IH]; intros [|p] [|q] E L; try discriminate; try lia; cbn [firstn]; [left; cbn in E; congruence|]. right. apply (IH p); [exact E|lia].
Qed.
Lemma keep_thinned f lg : forall n, thinned (keep f n lg) lg.
Proof. induction lg as [|x lg IH]; intros n; cbn [keep]; [constructor|]. destruct (f n); constructor; apply IH. Qed.
Lemma in_keep f x lg : forall n p, nth_error lg p = Some x -> f (n + p) = true -> In x (keep f n lg).
Proof.
  induction lg as [|y lg IH]; intros n p E F; [destruct p; discriminate|]. cbn [keep]. destruct p as [|p]; [rewrite Nat.add_0_r in F; rewrite F; left; cbn in E; congruence|].
  assert (In x (keep f (S n) lg)) by (apply (IH (S n) p E); now rewrite Nat.add_succ_comm). destruct (f n); [now right|assumption].
Qed.
Lemma first_place (lg : list (tag * (Z * call))) t : In t (map fst lg) -> exists p c, nth_error lg p = Some (t, c) /\ ~ In t (map fst (firstn p lg)).
Proof.
  induction lg as [|[t' c] lg IH]; intros I; [contradiction|]. destruct (tag_dec t' t) as [->|NE]; [exists 0, c; split; [reflexivity|intros []]|].
  destruct I as [Q|I]; [contradiction|]. destruct (IH I) as (p & c' & A & B). exists (S p), c'. split; [exact A|]. cbn [firstn map fst]. intros [Q|Q]; [contradiction|now apply B].
Qed.
Lemma nth_split_at {A} (l : list A) p x : nth_error l p = Some x -> l = firstn p l ++ x :: skipn (S p) l /\ length (firstn p l) = p.
Proof.
  revert l. induction p as [|p IH]; intros [|y l] E; try discriminate; [cbn in E; assert (y = x) by congruence; subst; split; reflexivity|]. destruct (IH l E) as (H1 & H2). split; [cbn [firstn skipn app]; f_equal; exact H1|cbn [firstn length]; now rewrite H2].
Qed.
Lemma other_place (lg : list (tag * (Z * call))) p q t code k c : writes_once lg -> nth_error lg p = Some (t, (code, k)) -> nth_error lg q = Some (t, c) -> p <> q -> codes_written k = [].
Proof.
  intros W A B NE. destruct (nth_split_at lg p _ A) as (S & LS). destruct (codes_written k) as [|z l] eqn:E; [reflexivity|]. exfalso. apply (W _ _ _ _ _ S); [congruence|].
  apply in_map_iff. exists (t, c). split; [reflexivity|]. rewrite S in B. destruct (Nat.lt_ge_cases q p) as [L|L].
  - apply in_or_app. left. rewrite nth_error_app1 in B by (rewrite LS; exact L). exact (nth_error_In _ _ B).
  - apply in_or_app. right. rewrite nth_error_app2 in B by (rewrite LS; exact L). rewrite LS in B. destruct (q - p) as [|d] eqn:D; [lia|]. cbn [nth_error] in B. exact (nth_error_In _ _ B).
Qed.
Lemma L_C95_reads_partial : forall St n l r o, ref_run2 (ref_start St n) l = (r, o) -> writes_once (v_log r) ->
  exists lg, thinned lg (v_log r) /\ (forall t, In t (map fst (v_log r)) -> In t (map fst lg)) /\
    explains St lg o /\ same_store (store_run St (map snd lg)) (v_store r).
Proof.
  intros St n l r o E W. destruct (L_C95_order St n l r o E) as (Q1 & Q2 & Q3 & Q4 & Q5). destruct (sources St (v_log r) o Q4 Q5) as (pos & P1 & P2 & P3). set (lg := v_log r) in *. set (f := chosen lg pos).
  assert (Del : forall p x, nth_error lg p = Some x -> f (0 + p) = false -> codes_written (snd (snd x)) = []).
  { intros p [t [code k]] A F. cbn [snd]. unfold f, chosen in F. cbn [Nat.add] in F. rewrite A in F. destruct (place t pos) as [q|] eqn:G.
    - apply place_in in G. destruct (P2 t q G) as (_ & c & B). apply Nat.eqb_neq in F. exact (other_place lg p q t code k c W A B F).
    - destruct (in_dec tag_dec t (map fst (firstn p lg))) as [I|_]; [|discriminate]. apply in_map_iff in I as ((t' & c) & Et & I). cbn [fst] in Et. subst t'. apply In_nth_error in I as (q & I).
      assert (Lq : q < p). { assert (q < length (firstn p lg)) by (apply nth_error_Some; congruence). rewrite firstn_length in H. lia. }
      assert (B : nth_error lg q = Some (t, c)). { rewrite <- (firstn_skipn p lg), nth_error_app1; [exact I|]. apply nth_error_Some. congruence. }
      apply (other_place lg p q t code k c W A B). lia. }
  exists (keep f 0 lg). split; [apply keep_thinned|]. split; [|split; [split|]].
  - intros t I. destruct (place t pos) as [q|] eqn:G.
    + pose proof (place_in _ _ _ G) as I'. destruct (P2 t q I') as (_ & c & B). apply in_map_iff. exists (t, c). split; [reflexivity|]. apply (in_keep f (t, c) lg 0 q B). unfold f, chosen. cbn [Nat.add]. rewrite B, G. apply Nat.eqb_refl.
    + destruct (first_place lg t I) as (p & c & B & F). apply in_map_iff. exists (t, c). split; [reflexivity|]. apply (in_keep f (t, c) lg 0 p B). unfold f, chosen. cbn [Nat.add]. rewrite B, G. destruct (in_dec _ _ _); [contradiction|reflexivity].
  - apply keep_nodup. intros p q [t x] [t' y] A B Et Fp Fq. cbn [fst] in Et. subst t'. unfold f, chosen in Fp, Fq. cbn [Nat.add] in Fp, Fq. rewrite A in Fp. rewrite B in Fq. destruct (place t pos) as [s|].
    + apply Nat.eqb_eq in Fp. apply Nat.eqb_eq in Fq. congruence.
    + destruct (in_dec tag_dec t (map fst (firstn p lg))) as [|Np]; [discriminate|]. destruct (in_dec tag_dec t (map fst (firstn q lg))) as [|Nq]; [discriminate|].
      destruct (Nat.lt_trichotomy p q) as [L|[L|L]]; [|exact L|]; exfalso; [apply Nq|apply Np]; apply in_map_iff; [exists (t, x)|exists (t, y)]; (split; [reflexivity|]); [exact (nth_firstn_in lg p q _ A L)|exact (nth_firstn_in lg q p _ B L)].
  - intros t code a I. destruct (P3 t code a I) as (p & k & G & A & R). destruct (nth_split_at lg p _ A) as (S & LS). exists (keep f 0 (firstn p lg)), k, (keep f (Datatypes.S p) (skipn (Datatypes.S p) lg)). split.
    + rewrite S at 1. rewrite keep_app, LS. cbn [keep Nat.add]. assert (F : f p = true) by (unfold f, chosen; rewrite A, (in_place t pos p P1 G); apply Nat.eqb_refl). now rewrite F.
    + rewrite <- R. apply reply_ext. apply keep_store. intros q x B F. apply (Del q x); [|exact F]. rewrite <- (firstn_skipn p lg), nth_error_app1; [exact B|]. apply nth_error_Some. congruence.
  - rewrite Q1. now apply keep_store.
Qed.

(** ** A write treated again *)
Lemma pokes_out ps : forall t c, ~ In c (map p_code ps) -> pokes t ps c = t c.
Proof.
  induction ps as [|p ps IH]; intros t c H; cbn [pokes fold_left]; [reflexivity|]. cbn [map In] in H. change (pokes (poke t p) ps c = t c). rewrite IH by tauto. unfold poke. destruct (t c) as [l|]; [|reflexivity].
  destruct (Z.eqb_spec c (p_code p)) as [->|_]; [exfalso; tauto|reflexivity].
Qed.
(** The contents of one property after a write depend on its contents before it only. *)
Lemma pokes_local ps : forall t t' c, t c = t' c -> pokes t ps c = pokes t' ps c.
Proof. induction ps as [|p ps IH]; intros t t' c H; cbn [pokes fold_left]; [exact H|]. apply IH. unfold poke. now rewrite H. Qed.
Definition last_data (c : Z) (ps : list prop) : option (list Z) :=
  fold_left (fun x p => if (c =? p_code p)%Z then Some (p_data p) else x) ps None.
Lemma pokes_cell t ps c : pokes t ps c = match t c with
  | Some l => Some (if cl_write l then match last_data c ps with Some d => mkcell d (cl_read l) true | None => l end else l)
  | None => None
  end.
Proof.
  induction ps as [|p ps IH] using rev_ind; [cbn; destruct (t c) as [l|]; [destruct (cl_write l)|]; reflexivity|].
  unfold pokes, last_data in *. rewrite !fold_left_app. cbn [fold_left]. unfold poke at 1. rewrite IH. destruct (t c) as [l|]; [|reflexivity]. f_equal.
  destruct (c =? p_code p)%Z; cbn [andb]; [|reflexivity]. destruct (cl_write l) eqn:W; [|now rewrite W]. destruct (fold_left _ ps None); cbn [cl_write cl_read]; [reflexivity|]. now rewrite W.
Qed.
Lemma pokes_again t ps c : pokes (pokes t ps) ps c = pokes t ps c.
Proof.
  rewrite (pokes_cell (pokes t ps)), !(pokes_cell t). destruct (t c) as [l|]; [|reflexivity]. f_equal. destruct (cl_write l) eqn:W; [|now rewrite W]. destruct (last_data c ps); cbn [cl_write cl_read]; [reflexivity|]. now rewrite W.
Qed.
Lemma after_again t k c : after (after t k) k c = after t k c.
Proof. destruct k; cbn [after]; [reflexivity|..]; apply pokes_again. Qed.
Lemma after_out t k c : ~ In c (codes_written k) -> after t k c = t c.
Proof. destruct k; cbn [after codes_written]; [reflexivity|..]; apply pokes_out. Qed.
Lemma after_local t t' k c : t c = t' c -> after t k c = after t' k c.
Proof. destruct k; cbn [after]; [auto|..]; apply pokes_local. Qed.
Lemma L_C95_again : forall St l1 code k l2 l3,
  (forall code' k', In (code', k') l2 -> code' <> code \/ forall c, In c (codes_written k) -> ~ In c (codes_written k')) ->
  same_store (store_run St (l1 ++ (code, k) :: l2 ++ (code, k) :: l3)) (store_run St (l1 ++ (code, k) :: l2 ++ l3)).
Proof.
  intros St l1 code k l2 l3 H. rewrite !run_app. cbn [store_run]. rewrite !run_app. cbn [store_run]. apply run_ext. set (S := store_run St l1). clearbody S. clear St l1.
  assert (K : forall l2 S', (forall code' k', In (code', k') l2 -> code' <> code \/ forall c, In c (codes_written k) -> ~ In c (codes_written k')) ->
    match S' code with Some t => forall c, after t k c = t c | None => True end ->
    match store_run S' l2 code with Some t => forall c, after t k c = t c | None => True end).
  { clear. induction l2 as [|[code' k'] l2 IH]; intros S' H A; cbn [store_run]; [exact A|]. apply IH; [intros c0 k0 I; apply H; now right|]. unfold store_after. destruct (S' code') as [t'|] eqn:E; [|exact A].
    destruct (Z.eqb_spec code code') as [<-|NE]; [|exact A]. rewrite E in A. intros c. destruct (H code k' (or_introl eq_refl)) as [Q|Q]; [congruence|].
    destruct (in_dec Z.eq_dec c (codes_written k)) as [I|I]; [|now apply after_out]. rewrite (after_out t' k' c) by (now apply Q). transitivity (after t' k c); [|apply A]. apply after_local. apply after_out. now apply Q. }
  assert (A0 : match store_after S code k code with Some t => forall c, after t k c = t c | None => True end).
  { unfold store_after. destruct (S code) as [t|] eqn:E; [|now rewrite E]. rewrite Z.eqb_refl. intros c. apply after_again. }
  specialize (K l2 _ H A0). set (S1 := store_run (store_after S code k) l2) in *. unfold store_after. destruct (S1 code) as [t|] eqn:E; [|apply same_refl]. intros i. destruct (Z.eqb_spec i code) as [->|_]; [now rewrite E|destruct (S1 i); auto].
Qed.

(** ** A write that is undone by its own copy *)
Definition undone (code c a b : Z) : list event2 :=
  [Once (EPost 0 code (KWrite [mkprop c [a]])); ECopyRequest 0; Once (EServe 0); Once (EAnswer 0); Once (EReturn 0);
   Once (EPost 1 code (KWrite [mkprop c [b]])); Once (EServe 1); Once (EAnswer 0); Once (EReturn 1);
   Once (EServe 0); Once (EPost 0 code (KRead [c])); Once (EServe 0); Once (EAnswer 1); Once (EReturn 0)].
Section Undone.
Context (St : store) (code c a b : Z) (t : table) (l : cell).
Context (Hc : (0 <= code < 2 ^ 24)%Z) (Bc : byte_ok c) (Ba : byte_ok a) (Bb : byte_ok b) (HS : St code = Some t) (Ht : t c = Some l) (Hr : cl_read l = true) (Hw : cl_write l = true).
Let w (x : Z) : call := KWrite [mkprop c [x]].
Definition good (S : store) : Prop := exists t' d, S code = Some t' /\ t' c = Some (mkcell d true true).
Lemma good_after S x : good S -> good (store_after S code (w x)) /\ store_reply S code (w x) = Some (0x71%Z, [mkprop c []], [], []) /\
  exists t', store_after S code (w x) code = Some t' /\ t' c = Some (mkcell [x] true true).
Proof.
  intros (t' & d & E & F). assert (G : exists t0, store_after S code (w x) code = Some t0 /\ t0 c = Some (mkcell [x] true true)).
  { unfold store_after. rewrite E, Z.eqb_refl. eexists. split; [reflexivity|]. cbn [w after pokes fold_left]. unfold poke. rewrite F. cbn [p_code p_data cl_write cl_read]. now rewrite Z.eqb_refl. }
  split; [|split; [|exact G]].
  - destruct G as (t0 & G1 & G2). now exists t0, [x].
  - unfold store_reply. rewrite E. cbn [w reply forallb map]. unfold writeable, echo, known, writeable. cbn [p_code p_data]. rewrite F. reflexivity.
Qed.
Lemma good_start : good St.
Proof. exists t, (cl_data l). split; [exact HS|]. rewrite Ht. destruct l; cbn in *. now subst. Qed.
Let S1 := store_after St code (w a).
Let S2 := store_after S1 code (w b).
Let S3 := store_after S2 code (w a).
Lemma undone_ref : map (fun r => (g_cli (fst r), snd r)) (snd (ref_run2 (ref_start St 2) (undone code c a b))) =
  [(0, Some (code, (0x71%Z, [mkprop c []], [], []))); (1, Some (code, (0x71%Z, [mkprop c []], [], []))); (0, Some (code, (0x72%Z, [mkprop c [a]], [], [])))].
Proof.
  destruct (good_after St a good_start) as (G1 & R1 & _). fold S1 in G1. destruct (good_after S1 b G1) as (G2 & R2 & _). fold S2 in G2. destruct (good_after S2 a G2) as (_ & R3 & t' & E & F).
  assert (R4 : store_reply S3 code (KRead [c]) = Some (0x72%Z, [mkprop c [a]], [], [])).
  { unfold store_reply. unfold S3. rewrite E. cbn [reply forallb map]. unfold readable, show. rewrite F. reflexivity. }
  unfold S3, S2, S1, w in *. unfold undone, ref_start. cbn [repeat]. set (kr := KRead [c]) in *. set (ka := KWrite [mkprop c [a]]) in *. set (kb := KWrite [mkprop c [b]]) in *.
  cbn -[store_after store_reply]. rewrite R1. cbn -[store_after store_reply]. rewrite R2. cbn -[store_after store_reply]. rewrite R3. cbn -[store_after store_reply]. rewrite R4. reflexivity.
Qed.
Lemma fits_write x : byte_ok x -> post_ok code (w x).
Proof.
  intros X. unfold post_ok, w. cbn [request]. split; [exact Hc|]. split; [split; [unfold byte_ok; cbn; lia|split; [cbn; lia|repeat constructor; unfold byte_ok in *; cbn in *; lia]]|].
  split; [repeat constructor; unfold byte_ok in *; cbn; lia|]. split; [constructor|]. unfold wire, wire_header, wire_body. cbn. lia.
Qed.
Lemma fits_read : post_ok code (KRead [c]).
Proof.
  unfold post_ok. cbn [request]. split; [exact Hc|]. split; [split; [unfold byte_ok; cbn; lia|split; [cbn; lia|repeat constructor; unfold byte_ok in *; cbn in *; lia]]|].
  split; [repeat constructor; unfold byte_ok in *; cbn; lia|]. split; [constructor|]. unfold wire, wire_header, wire_body. cbn. lia.
Qed.
Lemma calls_write S x : good S -> byte_ok x -> call_ok S code (w x).
Proof.
  intros G X. destruct (fits_write x X) as (A1 & A2 & A3 & A4 & A5). refine (conj A1 (conj A2 (conj A3 (conj A4 (conj A5 _))))). destruct (good_after S x G) as (_ & R & _). destruct G as (t' & d & E & _). unfold store_reply in R. rewrite E in *.
  rewrite R. split; [|exact Logic.I]. split; [unfold wire, wire_header, wire_body; cbn; lia|discriminate].
Qed.
Lemma calls_read S x : store_reply S code (KRead [c]) = Some (0x72%Z, [mkprop c [x]], [], []) -> call_ok S code (KRead [c]).
Proof.
  intros R. destruct fits_read as (A1 & A2 & A3 & A4 & A5). refine (conj A1 (conj A2 (conj A3 (conj A4 (conj A5 _))))). unfold store_reply in R. destruct (S code) as [t'|]; [|exact Logic.I].
  rewrite R. split; [|exact Logic.I]. split; [unfold wire, wire_header, wire_body; cbn; lia|]. intros _. unfold empty_list. cbn. now rewrite andb_false_r.
Qed.
Lemma undone_ok : run_ok2 (ref_start St 2) (undone code c a b).
Proof.
  destruct (good_after St a good_start) as (G1 & R1 & _). fold S1 in G1. destruct (good_after S1 b G1) as (G2 & R2 & _). fold S2 in G2. destruct (good_after S2 a G2) as (G3 & R3 & t' & E & F).
  assert (R4 : store_reply S3 code (KRead [c]) = Some (0x72%Z, [mkprop c [a]], [], [])).
  { unfold store_reply. unfold S3. rewrite E. cbn [reply forallb map]. unfold readable, show. rewrite F. reflexivity. }
  pose proof (calls_write St a good_start Ba) as C1. pose proof (calls_write S1 b G1 Bb) as C2. pose proof (calls_write S2 a G2 Ba) as C3. pose proof (calls_read S3 a R4) as C4.
  pose proof (fits_write a Ba) as P1. pose proof (fits_write b Bb) as P2. pose proof fits_read as P3.
  unfold S3, S2, S1, w in *. unfold undone, ref_start. cbn [repeat]. set (kr := KRead [c]) in *. set (ka := KWrite [mkprop c [a]]) in *. set (kb := KWrite [mkprop c [b]]) in *.
  cbn -[store_after store_reply call_ok post_ok]. rewrite ?R1, ?R2, ?R3, ?R4. cbn -[store_after store_reply call_ok post_ok]. rewrite ?R1, ?R2, ?R3, ?R4. cbn -[store_after store_reply call_ok post_ok]. rewrite ?R1, ?R2, ?R3, ?R4. cbn -[store_after store_reply call_ok post_ok].
  repeat match goal with |- _ /\ _ => split end; try exact Logic.I; try assumption; try lia.
Qed.
End Undone.
Lemma L_C95_undone_refuted : forall (PS : PySet) wd jd an St x code c a b t l, quiet wd -> reliable wd -> all_ready jd an St x -> length (w_clis x) = 2 ->
  (0 <= code < 2 ^ 24)%Z -> byte_ok c -> byte_ok a -> byte_ok b -> St code = Some t -> t c = Some l -> cl_read l = true -> cl_write l = true ->
  map (fun r => (fst r, option_map (fun m => (m_ESV m, m_props m)) (snd r))) (snd (net_run2 wd jd an x
    [Once (EPost 0 code (KWrite [mkprop c [a]])); ECopyRequest 0; Once (EServe 0); Once (EAnswer 0); Once (EReturn 0);
     Once (EPost 1 code (KWrite [mkprop c [b]])); Once (EServe 1); Once (EAnswer 0); Once (EReturn 1);
     Once (EServe 0); Once (EPost 0 code (KRead [c])); Once (EServe 0); Once (EAnswer 1); Once (EReturn 0)])) =
  [(0, Some (0x71%Z, [mkprop c []])); (1, Some (0x71%Z, [mkprop c []])); (0, Some (0x72%Z, [mkprop c [a]]))].
Proof.
  intros PS wd jd an St x code c a b t l Qd Rd Re L Hc Bc Ba Bb HS Ht Hr Hw. fold (undone code c a b).
  pose proof (undone_ref St code c a b t l Hc HS Ht Hr Hw) as U. pose proof (undone_ok St code c a b t l Hc Bc Ba Bb HS Ht Hr Hw) as K. rewrite <- L in U, K.
  destruct (L_C95_as_store_partial PS wd jd an St x _ Qd Rd Re K) as (x' & o & r' & E & F & _). rewrite E. rewrite F in U. cbn [snd] in *.
  transitivity (map (fun y : nat * option (Z * answer) => (fst y, option_map (fun z => (fst (fst (fst (snd z))), snd (fst (fst (snd z))))) (snd y))) (map (fun r => (g_cli (fst r), snd r)) o)); [|rewrite U; reflexivity].
  rewrite !map_map. apply map_ext. intros [[i n] [[cd [[[e ps] ss] gs]]|]]; reflexivity.
Qed.
