(** Proofs for C108. *)
From Verif Require Import PyBase CopyM SpecCopy.
Local Open Scope nat_scope.

Lemma reaches_trans g x y z : reaches g x y -> reaches g y z -> reaches g x z.
Proof. intros A B. induction B; [exact A|]. eapply reaches_next; eassumption. Qed.
Lemma reaches_first g x s y z : has g x s y -> reaches g y z -> reaches g x z.
Proof. intros A B. eapply reaches_trans; [|exact B]. eapply reaches_next; [apply reaches_self|exact A]. Qed.
Lemma copyable_locks k : copyable k = false <-> locks k.
Proof. unfold locks. destruct k as [| | | | | | | |[|]]; cbn; split; intros H; try discriminate H; try reflexivity; try tauto; destruct H as [H|[H|H]]; discriminate H. Qed.

(** ** copy.deepcopy *)
Lemma nth_upd_eq {A} (l : list A) x v z d : nth z (upd l x v) d = if (z =? x) && (x <? length l) then v else nth z l d.
Proof.
  revert x z. induction l as [|a l IH]; intros x z; cbn [upd].
  - destruct x; rewrite andb_false_r; reflexivity.
  - destruct x as [|x], z as [|z]; cbn [nth]; try reflexivity. rewrite IH. reflexivity.
Qed.
Lemma upd_len {A} (l : list A) x v : length (upd l x v) = length l.
Proof. revert x. induction l as [|a l IH]; intros [|x]; cbn [upd length]; try reflexivity. rewrite IH. reflexivity. Qed.
Lemma upd_far {A} (a b : list A) x v : length a <= x -> upd (a ++ b) x v = a ++ upd b (x - length a) v.
Proof.
  revert x. induction a as [|y a IH]; intros x L; cbn [app length]; [rewrite Nat.sub_0_r; reflexivity|].
  destruct x as [|x]; cbn [length] in L; [lia|]. cbn [upd]. rewrite IH by lia. cbn [length Nat.sub]. reflexivity.
Qed.
Lemma recall_in x y m : recall x m = Some y -> In (x, y) m.
Proof. induction m as [|[a b] m IH]; cbn [recall]; [discriminate|]. destruct (Nat.eqb_spec x a) as [->|]; [intros [= ->]; now left|right; auto]. Qed.
Lemma in_recall x y m : NoDup (map fst m) -> In (x, y) m -> recall x m = Some y.
Proof.
  induction m as [|[a b] m IH]; cbn [recall map fst]; intros N H; [contradiction|]. apply NoDup_cons_iff in N. destruct N as (N1 & N2). destruct H as [H|H]; [assert (a = x /\ b = y) as (-> & ->) by (split; congruence)|].
  - rewrite Nat.eqb_refl. reflexivity.
  - destruct (Nat.eqb_spec x a) as [->|]; [destruct N1; apply (in_map fst) in H; exact H|auto].
Qed.
Lemma recall_none x m : recall x m = None -> ~ In x (map fst m).
Proof. induction m as [|[a b] m IH]; cbn [recall map fst]; [auto|]. destruct (Nat.eqb_spec x a); [discriminate|]. intros H [E|E]; [congruence|exact (IH H E)]. Qed.
Lemma recall_app x y d m : NoDup (map fst (d ++ m)) -> recall x m = Some y -> recall x (d ++ m) = Some y.
Proof. intros N H. apply in_recall; [exact N|]. apply in_or_app. right. apply recall_in, H. Qed.
Lemma below_length (l : list nat) n : NoDup l -> (forall x, In x l -> x < n) -> length l <= n.
Proof. intros N H. rewrite <- (seq_length n 0). apply NoDup_incl_length; [exact N|]. intros x Hx. apply in_seq. specialize (H x Hx). lia. Qed.

Lemma Forall2_more {A B} (P Q : A -> B -> Prop) l k : (forall x y, P x y -> Q x y) -> Forall2 P l k -> Forall2 Q l k.
Proof. intros H F. induction F; constructor; auto. Qed.

Lemma Forall2_in_l {A B} (P : A -> B -> Prop) l k x : Forall2 P l k -> In x l -> exists y, In y k /\ P x y.
Proof. intros F. induction F as [|a b l k H F IH]; [intros []|]. intros [<-|I]; [exists b; split; [now left|exact H]|]. destruct (IH I) as (y & J & Q). exists y. split; [now right|exact Q]. Qed.

Section Deep.
Variable g0 : graph.
Hypothesis OK0 : intact g0.
Definition img (m : memo) (p q : slot * nat) : Prop := fst p = fst q /\ recall (snd p) m = Some (snd q).
Definition done (m : memo) (g : graph) (x y : nat) : Prop :=
  exists refs, inst_at g y = mkinst (i_kind (inst_at g0 x)) (i_val (inst_at g0 x)) refs /\ Forall2 (img m) (i_refs (inst_at g0 x)) refs.
Record inv (op : list nat) (g : graph) (m : memo) : Prop := {
  v_pre : exists r, g = g0 ++ r;
  v_len : length g = length g0 + length m;
  v_keys : NoDup (map fst m);
  v_range : forall x, In x (map fst m) -> x < length g0;
  v_vals : map snd m = rev (seq (length g0) (length m));
  v_copy : forall x, In x (map fst m) -> copyable (i_kind (inst_at g0 x)) = true;
  v_done : forall x y, In (x, y) m -> ~ In x op -> done m g x y }.
Lemma v_val op g m x y : inv op g m -> In (x, y) m -> length g0 <= y < length g.
Proof.
  intros V H. apply (in_map snd) in H. rewrite (v_vals _ _ _ V) in H. apply in_rev, in_seq in H. rewrite (v_len _ _ _ V). exact H.
Qed.
Lemma v_inj op g m x1 x2 y : inv op g m -> In (x1, y) m -> In (x2, y) m -> x1 = x2.
Proof.
  intros V A B. assert (N : NoDup (map snd m)). { rewrite (v_vals _ _ _ V). apply NoDup_rev, seq_NoDup. }
  clear - A B N. induction m as [|[a b] m IH]; [contradiction|]. cbn [map snd] in N. apply NoDup_cons_iff in N. destruct N as (N1 & N2).
  destruct A as [A|A], B as [B|B]; [congruence| | |auto].
  - assert (b = y) by congruence. subst b. destruct N1. apply (in_map snd) in B. exact B.
  - assert (b = y) by congruence. subst b. destruct N1. apply (in_map snd) in A. exact A.
Qed.
Lemma old_inst op g m x : inv op g m -> x < length g0 -> inst_at g x = inst_at g0 x.
Proof. intros V L. destruct (v_pre _ _ _ V) as (r & ->). unfold inst_at. apply app_nth1, L. Qed.
Lemma img_more m d p q : NoDup (map fst (d ++ m)) -> img m p q -> img (d ++ m) p q.
Proof. intros N (A & B). split; [exact A|]. apply recall_app; assumption. Qed.

Definition spec (from : nat -> Prop) (op : list nat) (m : memo) (st : cstate) (good : memo -> Prop) : Prop :=
  exists d, snd st = d ++ m /\ inv op (fst st) (snd st) /\ (forall k, In k (map fst d) -> exists x, from x /\ reaches g0 x k) /\ good (snd st).
Definition stuck (from : nat -> Prop) : Prop := exists x k, from x /\ reaches g0 x k /\ copyable (i_kind (inst_at g0 k)) = false.
Definition copies (f : nat) : Prop := forall op g m x, inv op g m -> x < length g0 -> length g0 - length m < f ->
  match dcopy f (g, m) x with
  | (st, Some y) => spec (eq x) op m st (fun m' => recall x m' = Some y)
  | (_, None) => stuck (eq x)
  end.
Lemma refs_copied f : copies f -> forall l op g m, inv op g m -> Forall (fun p => snd p < length g0) l -> length g0 - length m < f ->
  match copy_refs (dcopy f) l (g, m) with
  | (st, Some l') => spec (fun x => In x (map snd l)) op m st (fun m' => Forall2 (img m') l l')
  | (_, None) => stuck (fun x => In x (map snd l))
  end.
Proof.
  intros C. induction l as [|[t x] l IH]; intros op g m V F L; cbn [copy_refs].
  - exists []. split; [reflexivity|]. split; [exact V|]. split; [intros k []|constructor].
  - apply Forall_cons_iff in F. destruct F as (F1 & F2). cbn [snd] in F1. pose proof (C op g m x V F1 L) as X.
    destruct (dcopy f (g, m) x) as [[g1 m1] [y|]].
    2:{ destruct X as (x' & k & <- & R & K). exists x, k. split; [left; reflexivity|]. auto. }
    destruct X as (d & Ed & V1 & R1 & Y). cbn [fst snd] in *. subst m1.
    assert (L1 : length g0 - length (d ++ m) < f) by (rewrite app_length; lia).
    pose proof (IH op g1 (d ++ m) V1 F2 L1) as X. match type of X with context [copy_refs ?a ?b ?c] => change (copy_refs (dcopy f) l (g1, d ++ m)) with (copy_refs a b c); destruct (copy_refs a b c) as [[g2 m2] [l'|]] end.
    2:{ destruct X as (x' & k & I & R & K). exists x', k. split; [right; exact I|]. auto. }
    destruct X as (d2 & Ed & V2 & R2 & Y2). cbn [fst snd] in *. subst m2. exists (d2 ++ d). cbn [fst snd].
    split; [apply app_assoc|]. split; [exact V2|]. split.
    + intros k. rewrite map_app. intros H. apply in_app_or in H. destruct H as [H|H].
      * destruct (R2 k H) as (z & I & R). exists z. split; [right; exact I|exact R].
      * destruct (R1 k H) as (z & <- & R). exists x. split; [left; reflexivity|exact R].
    + constructor; [|exact Y2]. split; [reflexivity|]. cbn [snd]. apply recall_app; [exact (v_keys _ _ _ V2)|exact Y].
Qed.
Lemma all_copied f : copies f.
Proof.
  induction f as [|f IH]; intros op g m x V X L; [lia|]. cbn [dcopy].
  destruct (recall x m) as [y|] eqn:M.
  { exists []. split; [reflexivity|]. split; [exact V|]. split; [intros k []|exact M]. }
  rewrite (old_inst op g m x V X). destruct (copyable (i_kind (inst_at g0 x))) eqn:K.
  2:{ exists x, x. split; [reflexivity|]. split; [apply reaches_self|exact K]. }
  cbn [alloc]. pose proof (recall_none x m M) as NI.
  set (g1 := g ++ [mkinst (i_kind (inst_at g0 x)) (i_val (inst_at g0 x)) []]). set (m1 := (x, length g) :: m).
  assert (N1 : NoDup (map fst m1)) by (constructor; [exact NI|exact (v_keys _ _ _ V)]).
  assert (V1 : inv (x :: op) g1 m1).
  { constructor.
    - destruct (v_pre _ _ _ V) as (r & ->). exists (r ++ [mkinst (i_kind (inst_at g0 x)) (i_val (inst_at g0 x)) []]). unfold g1. rewrite <- app_assoc. reflexivity.
    - unfold g1, m1. rewrite app_length. cbn [length]. rewrite (v_len _ _ _ V). lia.
    - exact N1.
    - intros z [<-|H]; [exact X|exact (v_range _ _ _ V z H)].
    - unfold m1. cbn [map snd length]. rewrite seq_S, rev_app_distr, (v_len _ _ _ V), (v_vals _ _ _ V). reflexivity.
    - intros z [<-|H]; [exact K|exact (v_copy _ _ _ V z H)].
    - intros a b H NO. destruct H as [[= <- <-]|H]; [destruct NO; left; reflexivity|].
      destruct (v_done _ _ _ V a b H) as (refs & E & F); [intros O; apply NO; right; exact O|].
      exists refs. split; [rewrite <- E; unfold inst_at, g1; apply app_nth1; exact (proj2 (v_val _ _ _ _ _ V H))|].
      eapply Forall2_more. 2:exact F. intros p q. apply (img_more m [(x, length g)]). exact N1. }
  assert (FR : Forall (fun p => snd p < length g0) (i_refs (inst_at g0 x))).
  { apply Forall_forall. intros [t z] Hz. exact (OK0 x t z Hz). }
  assert (LM : length m < length g0).
  { assert (B : length (map fst m1) <= length g0). { apply below_length; [exact N1|exact (v_range _ _ _ V1)]. } cbn [m1 map length] in B. rewrite map_length in B. lia. }
  assert (L1 : length g0 - length m1 < f) by (cbn [m1 length]; lia).
  pose proof (refs_copied f IH (i_refs (inst_at g0 x)) (x :: op) g1 m1 V1 FR L1) as C.
  match type of C with context [copy_refs ?a ?b ?c] => change (copy_refs (dcopy f) (i_refs (inst_at g0 x)) (g1, m1)) with (copy_refs a b c); destruct (copy_refs a b c) as [[g2 m2] [refs|]] end.
  2:{ destruct C as (z & k & I & R & Q). exists x, k. split; [reflexivity|]. split; [|exact Q]. apply in_map_iff in I. destruct I as ([t z'] & E & I). cbn [snd] in E. subst z'. exact (reaches_first _ _ _ _ _ I R). }
  destruct C as (d & Ed & V2 & R & F). cbn [fst snd] in *. subst m2.
  assert (IX : In (x, length g) (d ++ m1)) by (apply in_or_app; right; left; reflexivity).
  exists (d ++ [(x, length g)]). cbn [fst snd]. split; [unfold m1; rewrite <- app_assoc; reflexivity|]. split; [|split].
  - pose proof (v_val _ _ _ _ _ V2 IX) as LY. constructor.
    + destruct (v_pre _ _ _ V2) as (r & ->). unfold put_inst. rewrite upd_far by lia. eauto.
    + unfold put_inst. rewrite upd_len. exact (v_len _ _ _ V2).
    + exact (v_keys _ _ _ V2).
    + exact (v_range _ _ _ V2).
    + exact (v_vals _ _ _ V2).
    + exact (v_copy _ _ _ V2).
    + intros a b H NO. unfold done, put_inst, inst_at. rewrite nth_upd_eq. destruct (Nat.eqb_spec b (length g)) as [->|NB].
      * rewrite (v_inj _ _ _ a x (length g) V2 H IX). rewrite (proj2 (Nat.ltb_lt _ _) (proj2 LY)). cbn [andb]. exists refs. split; [reflexivity|exact F].
      * cbn [andb]. apply (v_done _ _ _ V2 a b H). intros [<-|O]; [|exact (NO O)]. apply NB.
        pose proof (in_recall _ _ _ (v_keys _ _ _ V2) H) as E1. pose proof (in_recall _ _ _ (v_keys _ _ _ V2) IX) as E2. congruence.
  - intros k. rewrite map_app. intros H. apply in_app_or in H. destruct H as [H|[<-|[]]].
    + destruct (R k H) as (z & I & Q). exists x. split; [reflexivity|]. apply in_map_iff in I. destruct I as ([t z'] & E & I). cbn [snd] in E. subst z'. exact (reaches_first _ _ _ _ _ I Q).
    + exists x. split; [reflexivity|apply reaches_self].
  - apply in_recall; [exact (v_keys _ _ _ V2)|exact IX].
Qed.
Lemma inv_start : inv [] g0 [].
Proof.
  constructor; cbn [map length].
  - exists []. rewrite app_nil_r. reflexivity.
  - lia.
  - constructor.
  - intros x [].
  - reflexivity.
  - intros x [].
  - intros x y [].
Qed.
Lemma closed_keys g m x : inv [] g m -> In x (map fst m) -> forall k, reaches g0 x k -> In k (map fst m).
Proof.
  intros V I k R. induction R as [|k s l R IHR H]; [exact I|]. apply in_map_iff in IHR. destruct IHR as ([a b] & E & J). cbn [fst] in E. subst a.
  destruct (v_done _ _ _ V k b J) as (refs & _ & F); [intros []|]. unfold has in H.
  apply (Forall2_in_l _ _ _ _ F) in H. destruct H as (q & _ & (_ & E)). cbn [snd] in E. apply recall_in in E. apply (in_map fst) in E. exact E.
Qed.
End Deep.

Lemma L_C108_copy : forall g x, intact g -> x < length g -> ~ locked g x ->
  exists g' f, deep_copy g x = (g', Some (f x)) /\ untouched g g' /\ copy_of g g' x f.
Proof.
  intros g x I X NL. unfold deep_copy. pose proof (all_copied g I (S (length g)) [] g [] x (inv_start g) X) as C.
  specialize (C ltac:(cbn [length]; lia)). match type of C with context [dcopy ?a ?b ?c] => change (dcopy (S (length g)) (g, []) x) with (dcopy a b c); destruct (dcopy a b c) as [[g' m] [y|]] end.
  2:{ destruct C as (z & k & <- & R & K). destruct NL. exists k. split; [exact R|]. apply copyable_locks, K. }
  destruct C as (d & Ed & V & R & Y). cbn [fst snd] in *. rewrite app_nil_r in Ed. subst d.
  exists g', (fun k => match recall k m with Some b => b | None => 0 end). rewrite Y. split; [reflexivity|].
  assert (XI : In x (map fst m)). { apply recall_in in Y. apply (in_map fst) in Y. exact Y. }
  assert (ALL : forall k, reaches g x k -> exists b, recall k m = Some b /\ In (k, b) m).
  { intros k Rk. pose proof (closed_keys g g' m x V XI k Rk) as J. apply in_map_iff in J. destruct J as ([a b] & E & J). cbn [fst] in E. subst a.
    exists b. split; [apply in_recall; [exact (v_keys _ _ _ _ V)|exact J]|exact J]. }
  split; [|split; [|split]].
  - intros z Z. destruct (v_pre _ _ _ _ V) as (r & ->). apply nth_error_app1, Z.
  - intros k Rk. destruct (ALL k Rk) as (b & E & J). rewrite E. split; [exact (v_val _ _ _ _ _ _ V J)|].
    destruct (v_done _ _ _ _ V k b J) as (refs & H & F); [intros []|]. rewrite H. f_equal. clear - F.
    induction F as [|p q l l' (A & B) F IHF]; [reflexivity|]. cbn [map]. rewrite B, <- IHF. destruct p, q. cbn [fst snd] in *. subst. reflexivity.
  - intros k l Rk Rl. destruct (ALL k Rk) as (b & E & J). destruct (ALL l Rl) as (b' & E' & J'). rewrite E, E'. intros <-. exact (v_inj _ _ _ _ _ _ _ V J J').
  - intros z Z. assert (S1 : In z (map snd m)). { rewrite (v_vals _ _ _ _ V). rewrite (v_len _ _ _ _ V) in Z. apply in_rev. rewrite rev_involutive. apply in_seq. lia. }
    apply in_map_iff in S1. destruct S1 as ([a b] & E & J). cbn [snd] in E. subst b.
    destruct (R a) as (x' & <- & Ra); [apply (in_map fst) in J; exact J|]. exists a. split; [exact Ra|].
    rewrite (in_recall _ _ _ (v_keys _ _ _ _ V) J). reflexivity.
Qed.
Lemma L_C108_refused : forall g x, intact g -> x < length g -> locked g x -> deep_copy g x = (g, None).
Proof.
  intros g x I X (k & Rk & K). unfold deep_copy. pose proof (all_copied g I (S (length g)) [] g [] x (inv_start g) X) as C.
  specialize (C ltac:(cbn [length]; lia)). match type of C with context [dcopy ?a ?b ?c] => change (dcopy (S (length g)) (g, []) x) with (dcopy a b c); destruct (dcopy a b c) as [[g' m] [y|]] end; [|reflexivity].
  destruct C as (d & Ed & V & R & Y). cbn [fst snd] in *.
  assert (XI : In x (map fst m)). { apply recall_in in Y. apply (in_map fst) in Y. exact Y. }
  pose proof (v_copy _ _ _ _ V k (closed_keys g g' m x V XI k Rk)) as Q. apply copyable_locks in K. congruence.
Qed.

(** ** Copies are apart *)
Lemma inst_far g z : length g <= z -> inst_at g z = no_inst.
Proof. intros H. unfold inst_at. apply nth_overflow, H. Qed.
Lemma has_here g x s y : has g x s y -> x < length g.
Proof. intros H. destruct (Nat.lt_ge_cases x (length g)) as [L|L]; [exact L|]. unfold has in H. rewrite (inst_far g x L) in H. contradiction. Qed.
Lemma untouched_inst g g' z : untouched g g' -> z < length g -> inst_at g' z = inst_at g z.
Proof. intros U L. specialize (U z L). unfold inst_at. rewrite <- !nth_default_eq. unfold nth_default. rewrite U. reflexivity. Qed.
Lemma untouched_len g g' : untouched g g' -> length g <= length g'.
Proof.
  intros U. destruct (Nat.le_gt_cases (length g) (length g')) as [L|L]; [exact L|]. specialize (U (length g') L).
  rewrite (proj2 (nth_error_None g' (length g')) (le_n _)) in U. symmetry in U. apply nth_error_None in U. lia.
Qed.
Lemma reaches_old g g' x : intact g -> untouched g g' -> x < length g -> forall k, reaches g' x k <-> reaches g x k.
Proof.
  intros I U X. assert (G : forall k, reaches g x k -> k < length g).
  { intros k R. induction R as [|k s l R IH H]; [exact X|exact (I _ _ _ H)]. }
  intros k. split; intros R.
  - induction R as [|k s l R IH H]; [apply reaches_self|]. eapply reaches_next; [exact IH|]. unfold has in *. rewrite <- (untouched_inst g g' k U (G k IH)). exact H.
  - induction R as [|k s l R IH H]; [apply reaches_self|]. eapply reaches_next; [exact IH|]. unfold has in *. rewrite (untouched_inst g g' k U (G k R)). exact H.
Qed.
Lemma reaches_here g x k : intact g -> x < length g -> reaches g x k -> k < length g.
Proof. intros I X R. induction R as [|k s l R IH H]; [exact X|exact (I _ _ _ H)]. Qed.
Lemma locked_old g g' x : intact g -> untouched g g' -> x < length g -> locked g' x <-> locked g x.
Proof.
  intros I U X. split; intros (k & R & K).
  - apply (reaches_old g g' x I U X) in R. exists k. split; [exact R|]. rewrite <- (untouched_inst g g' k U (reaches_here g x k I X R)). exact K.
  - exists k. split; [apply (reaches_old g g' x I U X); exact R|]. rewrite (untouched_inst g g' k U (reaches_here g x k I X R)). exact K.
Qed.
Lemma copy_has g g' x f : copy_of g g' x f -> forall k s z, reaches g x k -> has g' (f k) s z -> exists l, has g k s l /\ z = f l.
Proof.
  intros (A & _) k s z R H. unfold has in H. rewrite (proj2 (A k R)) in H. cbn [i_refs] in H. apply in_map_iff in H.
  destruct H as ([t l] & E & H). cbn [fst snd] in E. exists l. split; [|congruence]. assert (t = s) by congruence. subst t. exact H.
Qed.
Lemma has_copy g g' x f : copy_of g g' x f -> forall k s l, reaches g x k -> has g k s l -> has g' (f k) s (f l).
Proof. intros (A & _) k s l R H. unfold has. rewrite (proj2 (A k R)). cbn [i_refs]. apply (in_map (fun p => (fst p, f (snd p)))) in H. exact H. Qed.
Lemma L_C108_apart : forall g g' x f, intact g -> copy_of g g' x f ->
  forall z, reaches g' (f x) z <-> exists k, reaches g x k /\ z = f k.
Proof.
  intros g g' x f I C z. split.
  - intros R. induction R as [|z s w R (k & Rk & ->) H]; [exists x; split; [apply reaches_self|reflexivity]|].
    destruct (copy_has g g' x f C k s w Rk H) as (l & Hl & ->). exists l. split; [eapply reaches_next; eassumption|reflexivity].
  - intros (k & R & ->). induction R as [|k s l R IH H]; [apply reaches_self|]. eapply reaches_next; [exact IH|]. exact (has_copy g g' x f C k s l R H).
Qed.

(** ** Programs *)
Definition typed (g : graph) : Prop :=
  intact g /\
  (forall x, NoDup (map fst (i_refs (inst_at g x)))) /\
  (forall x s y, has g x s y -> fits (i_kind (inst_at g x)) s (inst_at g y)) /\
  (forall x, i_kind (inst_at g x) = KProp \/ i_kind (inst_at g x) = KObj -> i_val (inst_at g x) <> []).
Definition staffed (g : graph) (x : nat) : Prop :=
  (i_kind (inst_at g x) = KNode \/ i_kind (inst_at g x) = KCtl -> exists m, has g x SMgr m) /\
  (i_kind (inst_at g x) = KCtl -> exists c, has g x SCond c).
Lemma proper_split g : proper g <-> typed g /\ forall x, staffed g x.
Proof.
  unfold proper, typed, staffed. split.
  - intros (A & B & C & D & E & F). split; [auto|]. intros x. split; [apply E|apply F].
  - intros ((A & B & C & D) & E). split; [exact A|]. split; [exact B|]. split; [exact C|]. split; [exact D|]. split; [intros x; apply E|intros x; apply E].
Qed.
Lemma slot_eqb_eq a b : slot_eqb a b = true <-> a = b.
Proof.
  destruct a, b; cbn [slot_eqb]; split; intros H; try discriminate H; try reflexivity; try (apply Z.eqb_eq in H; congruence); try (apply Nat.eqb_eq in H; congruence);
  try (injection H as ->; apply Z.eqb_refl); injection H as ->; apply Nat.eqb_refl.
Qed.
Lemma slot_dec (a b : slot) : {a = b} + {a <> b}.
Proof. destruct (slot_eqb a b) eqn:E; [left; apply slot_eqb_eq, E|right]. intros ->. rewrite (proj2 (slot_eqb_eq b b) eq_refl) in E. discriminate E. Qed.
Lemma set_ref_keys s x l : map fst (set_ref s x l) = if in_dec slot_dec s (map fst l) then map fst l else map fst l ++ [s].
Proof.
  induction l as [|[t y] l IH]; cbn [set_ref map fst]; [reflexivity|]. destruct (slot_eqb s t) eqn:E; cbn [map fst].
  - apply slot_eqb_eq in E. subst t. destruct (in_dec slot_dec s (s :: map fst l)) as [_|N]; [reflexivity|destruct N; left; reflexivity].
  - rewrite IH. assert (s <> t) as NE. { intros ->. rewrite (proj2 (slot_eqb_eq t t) eq_refl) in E. discriminate E. }
    destruct (in_dec slot_dec s (map fst l)) as [J|N], (in_dec slot_dec s (t :: map fst l)) as [J'|N']; try reflexivity.
    + destruct N'. right. exact J.
    + destruct J' as [<-|J']; [destruct NE; reflexivity|destruct (N J')].
Qed.
Lemma set_ref_in s x l t y : In (t, y) (set_ref s x l) -> (t = s /\ y = x) \/ In (t, y) l.
Proof.
  induction l as [|[u z] l IH]; cbn [set_ref].
  - intros [H|[]]. left. split; congruence.
  - destruct (slot_eqb s u) eqn:E; intros [H|H].
    + apply slot_eqb_eq in E. left. split; congruence.
    + right. right. exact H.
    + right. left. exact H.
    + destruct (IH H) as [J|J]; [left; exact J|right; right; exact J].
Qed.
Lemma in_set_ref s x l : In (s, x) (set_ref s x l).
Proof. induction l as [|[u z] l IH]; cbn [set_ref]; [left; reflexivity|]. destruct (slot_eqb s u) eqn:E; [|right; exact IH]. apply slot_eqb_eq in E. subst u. left. reflexivity. Qed.
Lemma in_set_other s x l t y : t <> s -> In (t, y) l -> In (t, y) (set_ref s x l).
Proof.
  intros N. induction l as [|[u z] l IH]; cbn [set_ref]; [intros []|]. destruct (slot_eqb s u) eqn:E; intros [H|H].
  - apply slot_eqb_eq in E. congruence.
  - right. exact H.
  - left. exact H.
  - right. exact (IH H).
Qed.
Lemma set_ref_nodup s x l : NoDup (map fst l) -> NoDup (map fst (set_ref s x l)).
Proof.
  intros N. rewrite set_ref_keys. destruct (in_dec slot_dec s (map fst l)) as [_|J]; [exact N|]. apply NoDup_Add with (a := s) (l := map fst l); [|split; [exact N|exact J]].
  rewrite <- (app_nil_r (map fst l)) at 1. apply Add_app.
Qed.
Lemma get_ref_in s x l : get_ref s l = Some x -> In (s, x) l.
Proof. induction l as [|[t y] l IH]; cbn [get_ref]; [discriminate|]. destruct (slot_eqb s t) eqn:E; intros H; [|right; exact (IH H)]. apply slot_eqb_eq in E. left. congruence. Qed.
Lemma in_get_ref s x l : NoDup (map fst l) -> In (s, x) l -> get_ref s l = Some x.
Proof.
  induction l as [|[t y] l IH]; cbn [get_ref map fst]; intros N H; [contradiction|]. apply NoDup_cons_iff in N. destruct N as (N1 & N2). destruct H as [H|H].
  - assert (t = s) by congruence. subst t. rewrite (proj2 (slot_eqb_eq s s) eq_refl). congruence.
  - destruct (slot_eqb s t) eqn:E; [|exact (IH N2 H)]. apply slot_eqb_eq in E. subst t. destruct N1. apply (in_map fst) in H. exact H.
Qed.

Lemma point_len x s y g : length (point x s y g) = length g.
Proof. apply upd_len. Qed.
Lemma point_inst x s y g z : inst_at (point x s y g) z = if (z =? x) && (x <? length g)
  then mkinst (i_kind (inst_at g x)) (i_val (inst_at g x)) (set_ref s y (i_refs (inst_at g x))) else inst_at g z.
Proof. unfold point, put_inst, inst_at. apply nth_upd_eq. Qed.
Lemma point_same x s y g z : i_kind (inst_at (point x s y g) z) = i_kind (inst_at g z) /\ i_val (inst_at (point x s y g) z) = i_val (inst_at g z).
Proof. rewrite point_inst. destruct (Nat.eqb_spec z x) as [->|]; cbn [andb]; [|split; reflexivity]. destruct (x <? length g); split; reflexivity. Qed.
Lemma point_has x s y g z t w : has (point x s y g) z t w -> (z = x /\ t = s /\ w = y) \/ has g z t w.
Proof.
  unfold has. rewrite point_inst. destruct (Nat.eqb_spec z x) as [->|]; cbn [andb]; [|right; assumption]. destruct (x <? length g); [|right; assumption].
  cbn [i_refs]. intros H. destruct (set_ref_in _ _ _ _ _ H) as [(-> & ->)|J]; [left; auto|right; exact J].
Qed.
Lemma has_point x s y g : x < length g -> has (point x s y g) x s y.
Proof. intros L. unfold has. rewrite point_inst, Nat.eqb_refl, (proj2 (Nat.ltb_lt _ _) L). cbn [andb i_refs]. apply in_set_ref. Qed.
Lemma has_kept x s y g z t w : (z, t) <> (x, s) -> has g z t w -> has (point x s y g) z t w.
Proof.
  intros N H. unfold has. rewrite point_inst. destruct (Nat.eqb_spec z x) as [->|]; cbn [andb]; [|exact H]. destruct (x <? length g); [|exact H].
  cbn [i_refs]. apply in_set_other; [|exact H]. congruence.
Qed.
Lemma has_some x s y g z t : (exists w, has g z t w) -> exists w, has (point x s y g) z t w.
Proof.
  intros (w & H). destruct (Nat.eq_dec z x) as [->|N]; [|exists w; apply has_kept; [congruence|exact H]].
  destruct (slot_dec t s) as [->|N]; [exists y; apply has_point, (has_here _ _ _ _ H)|exists w; apply has_kept; [congruence|exact H]].
Qed.
Lemma fits_same k s i j : i_kind i = i_kind j -> i_val i = i_val j -> fits k s i -> fits k s j.
Proof. intros A B. unfold fits. rewrite A, B. exact (fun x => x). Qed.
Lemma typed_point x s y g : typed g -> y < length g -> fits (i_kind (inst_at g x)) s (inst_at g y) -> typed (point x s y g).
Proof.
  intros (A & B & C & D) Y F. split; [|split; [|split]].
  - intros z t w H. rewrite point_len. destruct (point_has _ _ _ _ _ _ _ H) as [(-> & -> & ->)|J]; [exact Y|exact (A _ _ _ J)].
  - intros z. rewrite point_inst. destruct ((z =? x) && (x <? length g)); [|apply B]. cbn [i_refs]. apply set_ref_nodup, B.
  - intros z t w H. rewrite (proj1 (point_same x s y g z)). destruct (point_same x s y g w) as (E1 & E2).
    apply (fits_same _ _ (inst_at g w) _ (eq_sym E1) (eq_sym E2)). destruct (point_has _ _ _ _ _ _ _ H) as [(-> & -> & ->)|J]; [exact F|exact (C _ _ _ J)].
  - intros z. destruct (point_same x s y g z) as (-> & ->). apply D.
Qed.
Lemma staffed_point x s y g z : staffed g z -> staffed (point x s y g) z.
Proof. intros (A & B). unfold staffed. rewrite (proj1 (point_same x s y g z)). split; intros K; apply has_some; [apply A, K|apply B, K]. Qed.
Lemma proper_point x s y g : proper g -> y < length g -> fits (i_kind (inst_at g x)) s (inst_at g y) -> proper (point x s y g).
Proof. intros P Y F. apply proper_split in P. apply proper_split. split; [apply typed_point; [apply P|exact Y|exact F]|]. intros z. apply staffed_point, P. Qed.

Lemma alloc_inst g i z : inst_at (g ++ [i]) z = if z =? length g then i else inst_at g z.
Proof.
  unfold inst_at. destruct (Nat.eqb_spec z (length g)) as [->|N]; [rewrite app_nth2, Nat.sub_diag by lia; reflexivity|].
  destruct (Nat.lt_ge_cases z (length g)) as [L|L]; [apply app_nth1, L|]. rewrite !nth_overflow; [reflexivity|exact L|rewrite app_length; cbn; lia].
Qed.
Lemma typed_alloc g k v refs : typed g -> (forall s y, In (s, y) refs -> y < length g /\ fits k s (inst_at g y)) -> NoDup (map fst refs) ->
  (k = KProp \/ k = KObj -> v <> []) -> typed (g ++ [mkinst k v refs]).
Proof.
  intros (A & B & C & D) R N V. split; [|split; [|split]].
  - intros z t w H. rewrite app_length. cbn [length]. unfold has in H. rewrite alloc_inst in H. destruct (z =? length g); [destruct (R _ _ H); lia|]. specialize (A _ _ _ H). lia.
  - intros z. rewrite alloc_inst. destruct (z =? length g); [exact N|apply B].
  - intros z t w H. unfold has in H. assert (G : forall j, i_kind j = i_kind (inst_at (g ++ [mkinst k v refs]) z) -> In (t, w) (i_refs j) -> w < length g /\ fits (i_kind j) t (inst_at g w) -> fits (i_kind (inst_at (g ++ [mkinst k v refs]) z)) t (inst_at (g ++ [mkinst k v refs]) w)).
    { intros j <- _ (L & F). rewrite (alloc_inst g _ w). destruct (Nat.eqb_spec w (length g)) as [->|_]; [lia|exact F]. }
    apply (G (inst_at (g ++ [mkinst k v refs]) z) eq_refl H). rewrite alloc_inst in *. destruct (z =? length g); [exact (R _ _ H)|]. split; [exact (A _ _ _ H)|exact (C _ _ _ H)].
  - intros z. rewrite alloc_inst. destruct (z =? length g); [exact V|apply D].
Qed.
Lemma staffed_alloc g i z : z <> length g -> staffed g z -> staffed (g ++ [i]) z.
Proof. intros N. unfold staffed, has. rewrite alloc_inst. destruct (Nat.eqb_spec z (length g)); [contradiction|exact (fun x => x)]. Qed.
Lemma proper_alloc g k v refs : proper g -> (forall s y, In (s, y) refs -> y < length g /\ fits k s (inst_at g y)) -> NoDup (map fst refs) ->
  (k = KProp \/ k = KObj -> v <> []) -> k <> KNode -> k <> KCtl -> proper (g ++ [mkinst k v refs]).
Proof.
  intros P R N V K1 K2. apply proper_split in P. apply proper_split. split; [apply typed_alloc; [apply P|exact R|exact N|exact V]|].
  intros z. destruct (Nat.eq_dec z (length g)) as [->|Nz]; [|apply staffed_alloc; [exact Nz|apply P]].
  unfold staffed. rewrite alloc_inst, Nat.eqb_refl. cbn [i_kind]. split; [intros [H|H]; contradiction|intros H; contradiction].
Qed.

Lemma proper_copy g g' x f : proper g -> x < length g -> untouched g g' -> copy_of g g' x f -> proper g'.
Proof.
  intros P X U C. pose proof P as (I & _). pose proof (untouched_len g g' U) as L. pose proof C as (C1 & C2 & C3).
  assert (CASE : forall z, (z < length g /\ inst_at g' z = inst_at g z) \/
    (exists k, z = f k /\ reaches g x k /\ length g <= z < length g' /\ inst_at g' z = mkinst (i_kind (inst_at g k)) (i_val (inst_at g k)) (map (fun p => (fst p, f (snd p))) (i_refs (inst_at g k)))) \/
    (length g' <= z)).
  { intros z. destruct (Nat.lt_ge_cases z (length g)) as [Z|Z]; [left; split; [exact Z|exact (untouched_inst g g' z U Z)]|].
    destruct (Nat.lt_ge_cases z (length g')) as [W|W]; [|right; right; exact W]. right. left. destruct (C3 z (conj Z W)) as (k & R & ->). exists k. split; [reflexivity|]. split; [exact R|exact (C1 k R)]. }
  assert (FAR : forall z, length g' <= z -> inst_at g' z = no_inst) by (intros; apply inst_far; assumption).
  destruct P as (_ & P2 & P3 & P4 & P5 & P6). split; [|split; [|split; [|split; [|split]]]].
  - intros z s w H. pose proof (has_here _ _ _ _ H) as Z. destruct (CASE z) as [(Z1 & E)|[(k & -> & R & _ & _)|Z1]]; [| |lia].
    + unfold has in H. rewrite E in H. specialize (I _ _ _ H). lia.
    + destruct (copy_has g g' x f C k s w R H) as (l & Hl & ->). apply C1. exact (reaches_next _ _ _ _ _ R Hl).
  - intros z. destruct (CASE z) as [(Z1 & ->)|[(k & _ & _ & _ & ->)|Z1]]; [apply P2| |rewrite (FAR z Z1); constructor].
    cbn [i_refs]. rewrite map_map. cbn [fst]. apply P2.
  - intros z s w H. destruct (CASE z) as [(Z1 & E)|[(k & -> & R & _ & E)|Z1]].
    + rewrite E. unfold has in H. rewrite E in H. rewrite (untouched_inst g g' w U (I _ _ _ H)). exact (P3 _ _ _ H).
    + destruct (copy_has g g' x f C k s w R H) as (l & Hl & ->). rewrite E. cbn [i_kind].
      apply (fits_same _ _ (inst_at g l)); [| |exact (P3 _ _ _ Hl)]; rewrite (proj2 (C1 l (reaches_next _ _ _ _ _ R Hl))); reflexivity.
    + pose proof (has_here _ _ _ _ H). lia.
  - intros z. destruct (CASE z) as [(Z1 & ->)|[(k & _ & _ & _ & ->)|Z1]]; [apply P4|apply P4|rewrite (FAR z Z1); cbn; intros [H|H]; discriminate H].
  - intros z. destruct (CASE z) as [(Z1 & E)|[(k & -> & R & _ & E)|Z1]]; [| |rewrite (FAR z Z1); cbn; intros [H|H]; discriminate H].
    + unfold has. rewrite E. apply P5.
    + rewrite E. cbn [i_kind]. intros K. destruct (P5 k K) as (m & Hm). exists (f m). exact (has_copy g g' x f C k _ m R Hm).
  - intros z. destruct (CASE z) as [(Z1 & E)|[(k & -> & R & _ & E)|Z1]]; [| |rewrite (FAR z Z1); cbn; intros H; discriminate H].
    + unfold has. rewrite E. apply P6.
    + rewrite E. cbn [i_kind]. intros K. destruct (P6 k K) as (m & Hm). exists (f m). exact (has_copy g g' x f C k _ m R Hm).
Qed.
Lemma locked_dec g x : intact g -> x < length g -> locked g x \/ ~ locked g x.
Proof.
  intros I X. unfold locked. pose proof (all_copied g I (S (length g)) [] g [] x (inv_start g) X) as C. specialize (C ltac:(cbn [length]; lia)).
  match type of C with context [dcopy ?a ?b ?c] => destruct (dcopy a b c) as [[g' m] [y|]] end.
  - right. intros (k & Rk & K). destruct C as (d & Ed & V & R & Y). cbn [fst snd] in *.
    assert (XI : In x (map fst m)). { apply recall_in in Y. apply (in_map fst) in Y. exact Y. }
    pose proof (v_copy _ _ _ _ V k (closed_keys g g' m x V XI k Rk)) as Q. apply copyable_locks in K. congruence.
  - left. destruct C as (z & k & <- & R & K). exists k. split; [exact R|apply copyable_locks, K].
Qed.
Lemma deep_cases g x : proper g -> x < length g ->
  (locked g x /\ deep_copy g x = (g, None)) \/
  (~ locked g x /\ exists g' f, deep_copy g x = (g', Some (f x)) /\ untouched g g' /\ copy_of g g' x f /\ proper g').
Proof.
  intros P X. pose proof P as (I & _). destruct (locked_dec g x I X) as [K|K]; [left; split; [exact K|exact (L_C108_refused g x I X K)]|right].
  split; [exact K|]. destruct (L_C108_copy g x I X K) as (g' & f & E & U & C). exists g', f. do 3 (split; [assumption|]). exact (proper_copy g g' x f P X U C).
Qed.

(** *** A new object with copies of properties *)
Lemma alloc_untouched g i : untouched g (g ++ [i]).
Proof. intros z Z. apply nth_error_app1, Z. Qed.
Lemma untouched_trans g g1 g2 : untouched g g1 -> untouched g1 g2 -> untouched g g2.
Proof. intros A B z Z. rewrite B; [apply A, Z|]. pose proof (untouched_len g g1 A). lia. Qed.
Lemma nth_error_upd_ne {A} (l : list A) x v z : z <> x -> nth_error (upd l x v) z = nth_error l z.
Proof. revert x z. induction l as [|a l IH]; intros [|x] [|z] N; cbn [upd nth_error]; try reflexivity; try (destruct (N eq_refl)). apply IH. congruence. Qed.
Lemma untouched_point g h x s y : untouched g h -> length g <= x -> untouched g (point x s y h).
Proof. intros U L z Z. rewrite <- (U z Z). unfold point, put_inst. apply nth_error_upd_ne. lia. Qed.
Lemma untouched_refl g : untouched g g.
Proof. intros z _. reflexivity. Qed.

(** [h] has a new object [c] with the references [base] and copies [qs] of the properties [ps]. *)
Definition filled (g h : graph) (c code : _) (base : list (slot * nat)) (ps : list (Z * nat)) (q : nat -> nat) : Prop :=
  untouched g h /\ proper h /\ length g = c /\ c < length h /\
  inst_at h c = mkinst KObj [code] (base ++ map (fun p => (SPr (fst p), q (snd p))) ps) /\
  (forall p, In p (map snd ps) -> c < q p < length h /\ inst_at h (q p) = mkinst KProp (i_val (inst_at g p)) [(SOwner, c)]) /\
  (forall p p', In p (map snd ps) -> In p' (map snd ps) -> q p = q p' -> p = p').
Definition prop_at (g : graph) (p : Z * nat) : Prop :=
  snd p < length g /\ i_kind (inst_at g (snd p)) = KProp /\ hd_error (i_val (inst_at g (snd p))) = Some (fst p).
Lemma prop_refs g p : proper g -> i_kind (inst_at g p) = KProp -> i_refs (inst_at g p) = [] \/ exists o, i_refs (inst_at g p) = [(SOwner, o)].
Proof.
  intros (_ & N & F & _) K. specialize (N p). assert (A : forall s y, In (s, y) (i_refs (inst_at g p)) -> s = SOwner).
  { intros s y H. specialize (F p s y H). unfold fits in F. rewrite K in F. destruct s; try contradiction; reflexivity. }
  destruct (i_refs (inst_at g p)) as [|[s o] [|[t w] r]]; [left; reflexivity|right; exists o; rewrite (A s o (or_introl eq_refl)); reflexivity|].
  exfalso. rewrite (A s o (or_introl eq_refl)), (A t w (or_intror (or_introl eq_refl))) in N. cbn [map fst] in N. apply NoDup_cons_iff in N. apply N. left. reflexivity.
Qed.
Lemma set_ref_new s x l : ~ In s (map fst l) -> set_ref s x l = l ++ [(s, x)].
Proof.
  induction l as [|[t y] l IH]; cbn [set_ref map fst app]; intros N; [reflexivity|]. destruct (slot_eqb s t) eqn:E; [destruct N; left; symmetry; apply slot_eqb_eq, E|].
  rewrite IH; [reflexivity|]. intros J. apply N. right. exact J.
Qed.
Lemma fill_one g h c code base ps q p h1 f : filled g h c code base ps q -> proper g -> prop_at g p -> ~ In (fst p) (map fst ps) -> ~ In (snd p) (map snd ps) ->
  (forall s, In s (map fst base) -> match s with SPr _ => False | _ => True end) ->
  untouched h h1 -> copy_of h h1 (snd p) f -> proper h1 ->
  exists q', filled g (add_prop c (f (snd p)) h1) c code base (ps ++ [p]) q'.
Proof.
  intros (U & P & LC & CH & EC & EQ & INJ) PG (PL & PK & PV) NC NP BASE U1 (C1 & _) P1.
  pose proof (untouched_len g h U) as L0. pose proof (untouched_len h h1 U1) as L1.
  assert (EP : inst_at h (snd p) = inst_at g (snd p)) by exact (untouched_inst g h _ U PL).
  destruct (C1 (snd p) (reaches_self _ _)) as (FL & FE). rewrite EP in FE.
  set (y := f (snd p)) in *.
  assert (VC : val_code (inst_at h1 y) = fst p). { rewrite FE. unfold val_code. cbn [i_val]. destruct (i_val (inst_at g (snd p))); [discriminate PV|]. cbn in *. congruence. }
  assert (EC1 : inst_at h1 c = inst_at h c) by exact (untouched_inst h h1 c U1 CH).
  assert (NY : y <> c) by lia.
  assert (YL : y < length h1) by lia. assert (CL : c < length h1) by lia.
  unfold add_prop. rewrite VC. set (h2 := point c (SPr (fst p)) y h1). set (h3 := point y SOwner c h2).
  assert (E2 : forall z, z <> c -> inst_at h2 z = inst_at h1 z). { intros z N. unfold h2. rewrite point_inst. destruct (Nat.eqb_spec z c); [contradiction|reflexivity]. }
  assert (E2c : inst_at h2 c = mkinst KObj [code] (base ++ map (fun p => (SPr (fst p), q (snd p))) ps ++ [(SPr (fst p), y)])).
  { unfold h2. rewrite point_inst, Nat.eqb_refl, (proj2 (Nat.ltb_lt _ _) CL). cbn [andb]. rewrite EC1, EC. cbn [i_kind i_val i_refs]. rewrite set_ref_new; [rewrite <- app_assoc; reflexivity|].
    rewrite map_app, in_app_iff. intros [H|H]; [exact (BASE _ H)|]. rewrite map_map in H. cbn [fst] in H. apply in_map_iff in H. destruct H as (p' & E & J). apply NC. apply in_map_iff. exists p'. split; [congruence|exact J]. }
  assert (E3 : forall z, z <> y -> inst_at h3 z = inst_at h2 z). { intros z N. unfold h3. rewrite point_inst. destruct (Nat.eqb_spec z y); [contradiction|reflexivity]. }
  assert (K2 : i_kind (inst_at h1 y) = KProp) by (rewrite FE; exact PK).
  assert (E3y : inst_at h3 y = mkinst KProp (i_val (inst_at g (snd p))) [(SOwner, c)]).
  { unfold h3, h2. rewrite point_inst, Nat.eqb_refl, point_len, (proj2 (Nat.ltb_lt _ _) YL). cbn [andb]. fold h2. rewrite (E2 y NY), FE. cbn [i_kind i_val i_refs]. rewrite PK. f_equal.
    destruct (prop_refs g (snd p) PG PK) as [->|(o & ->)]; reflexivity. }
  exists (fun z => if z =? snd p then y else q z). split; [|split; [|split; [|split; [|split; [|split]]]]].
  - apply untouched_point; [|lia]. apply untouched_point; [|lia]. exact (untouched_trans g h h1 U U1).
  - apply proper_point.
    + apply proper_point; [exact P1|exact YL|]. rewrite EC1, EC. unfold fits. cbn [i_kind]. rewrite K2, FE. cbn [i_val]. exact PV.
    + unfold h2. rewrite point_len. exact CL.
    + rewrite (E2 y NY), K2, E2c. exact I.
  - exact LC.
  - unfold h3, h2. rewrite !point_len. exact CL.
  - rewrite (E3 c (not_eq_sym NY)), E2c. rewrite map_app. cbn [map]. rewrite Nat.eqb_refl. f_equal. f_equal. f_equal.
    apply map_ext_in. intros p' J. destruct (Nat.eqb_spec (snd p') (snd p)) as [E|_]; [|reflexivity]. destruct NP. rewrite <- E. apply in_map, J.
  - intros z. rewrite map_app, in_app_iff. intros H. destruct (Nat.eqb_spec z (snd p)) as [->|N].
    + unfold h3, h2. rewrite !point_len. split; [lia|]. fold h2 h3. exact E3y.
    + destruct H as [H|[H|[]]]; [|congruence]. destruct (EQ z H) as (Q1 & Q2). unfold h3, h2. rewrite !point_len. split; [lia|]. fold h2 h3.
      rewrite E3, E2, (untouched_inst h h1 _ U1) by lia. exact Q2.
  - intros a b. rewrite map_app, !in_app_iff. cbn [map In]. destruct (Nat.eqb_spec a (snd p)) as [->|Na], (Nat.eqb_spec b (snd p)) as [->|Nb]; intros A B E.
    + reflexivity.
    + destruct B as [B|[B|[]]]; [|congruence]. destruct (EQ b B). lia.
    + destruct A as [A|[A|[]]]; [|congruence]. destruct (EQ a A). lia.
    + destruct A as [A|[A|[]]], B as [B|[B|[]]]; try congruence. exact (INJ a b A B E).
Qed.
Lemma fill_all g code base : proper g -> (forall s, In s (map fst base) -> match s with SPr _ => False | _ => True end) ->
  forall l c h ps q, filled g h c code base ps q -> Forall (prop_at g) l -> NoDup (map fst (ps ++ l)) -> NoDup (map snd (ps ++ l)) ->
  (forall p, In p l -> ~ locked g (snd p)) -> exists h' q', copy_into c (map snd l) h = (h', true) /\ filled g h' c code base (ps ++ l) q'.
Proof.
  intros PG BASE. pose proof PG as (IG & _). induction l as [|p l IH]; intros c h ps q F A N1 N2 NL; cbn [map copy_into].
  - exists h, q. split; [reflexivity|]. rewrite app_nil_r. exact F.
  - apply Forall_cons_iff in A. destruct A as (A1 & A2). pose proof F as (U & P & LC & CH & _). pose proof (untouched_len g h U) as L0.
    destruct (deep_cases h (snd p) P) as [(K & _)|(K & h1 & f & E & U1 & C & P1)]; [destruct A1; lia| |].
    { destruct (NL p (or_introl eq_refl)). apply (locked_old g h (snd p) IG U (proj1 A1)), K. }
    rewrite E. rewrite map_app in N1, N2. cbn [map] in N1, N2.
    destruct (fill_one g h c code base ps q p h1 f F PG A1) as (q' & F').
    + intros J. apply NoDup_remove_2 in N1. apply N1. apply in_or_app. left. exact J.
    + intros J. apply NoDup_remove_2 in N2. apply N2. apply in_or_app. left. exact J.
    + exact BASE.
    + exact U1.
    + exact C.
    + exact P1.
    + replace (ps ++ p :: l) with ((ps ++ [p]) ++ l) by (rewrite <- app_assoc; reflexivity). apply (IH c _ (ps ++ [p]) q' F' A2).
      * rewrite <- app_assoc, map_app. exact N1.
      * rewrite <- app_assoc, map_app. exact N2.
      * intros z J. apply NL. right. exact J.
Qed.
Lemma fill_fails g code base : proper g -> (forall s, In s (map fst base) -> match s with SPr _ => False | _ => True end) ->
  forall l c h ps q, filled g h c code base ps q -> Forall (prop_at g) l -> NoDup (map fst (ps ++ l)) -> NoDup (map snd (ps ++ l)) ->
  (exists p, In p l /\ locked g (snd p)) -> exists h', copy_into c (map snd l) h = (h', false).
Proof.
  intros PG BASE. pose proof PG as (IG & _). induction l as [|p l IH]; intros c h ps q F A N1 N2 (z & Z & KZ); cbn [map copy_into]; [contradiction|].
  apply Forall_cons_iff in A. destruct A as (A1 & A2). pose proof F as (U & P & LC & CH & _). pose proof (untouched_len g h U) as L0.
  destruct (deep_cases h (snd p) P) as [(K & E)|(K & h1 & f & E & U1 & C & P1)]; [destruct A1; lia| |]; rewrite E; [exists h; reflexivity|].
  destruct Z as [<-|Z]; [destruct K; apply (locked_old g h (snd p) IG U (proj1 A1)), KZ|].
  rewrite map_app in N1, N2. cbn [map] in N1, N2.
  destruct (fill_one g h c code base ps q p h1 f F PG A1) as (q' & F').
  - intros J. apply NoDup_remove_2 in N1. apply N1. apply in_or_app. left. exact J.
  - intros J. apply NoDup_remove_2 in N2. apply N2. apply in_or_app. left. exact J.
  - exact BASE.
  - exact U1.
  - exact C.
  - exact P1.
  - apply (IH c _ (ps ++ [p]) q' F' A2).
    + rewrite <- app_assoc, map_app. exact N1.
    + rewrite <- app_assoc, map_app. exact N2.
    + exists z. split; [exact Z|exact KZ].
Qed.
Lemma held_in g o c p : In (c, p) (held g o) <-> has g o (SPr c) p.
Proof.
  unfold held, has. rewrite in_flat_map. split.
  - intros ([s y] & J & H). cbn [fst snd] in H. destruct s; try contradiction. destruct H as [H|[]]. assert (code = c /\ y = p) as (-> & ->) by (split; congruence). exact J.
  - intros H. exists (SPr c, p). split; [exact H|left; reflexivity].
Qed.
Lemma held_props g o : props_of (inst_at g o) = map snd (held g o).
Proof. unfold props_of, held. induction (i_refs (inst_at g o)) as [|[s y] l IH]; [reflexivity|]. cbn [flat_map fst snd]. rewrite map_app, <- IH. destruct s; reflexivity. Qed.
Lemma held_nodup l : NoDup (map fst l) -> NoDup (map fst (flat_map (fun p : slot * nat => match fst p with SPr c => [(c, snd p)] | _ => [] end) l)).
Proof.
  induction l as [|[s y] l IH]; cbn [map fst flat_map]; intros N; [constructor|]. apply NoDup_cons_iff in N. destruct N as (N1 & N2). specialize (IH N2).
  destruct s; cbn [app map fst]; try exact IH. constructor; [|exact IH]. intros J. apply in_map_iff in J. destruct J as ([c p] & E & J). cbn [fst] in E. subst c.
  apply in_flat_map in J. destruct J as ([t z] & J & H). cbn [fst snd] in H. destruct t; try contradiction. destruct H as [H|[]]. assert (code0 = code) by congruence. subst code0.
  apply N1. apply (in_map fst) in J. exact J.
Qed.
Lemma held_facts g o : proper g -> i_kind (inst_at g o) = KObj -> Forall (prop_at g) (held g o) /\ NoDup (map fst (held g o)) /\ NoDup (map snd (held g o)).
Proof.
  intros (I & N & F & _) K. assert (A : Forall (prop_at g) (held g o)).
  { apply Forall_forall. intros [c p] J. apply held_in in J. specialize (F _ _ _ J). unfold fits in F. rewrite K in F. split; [exact (I _ _ _ J)|]. cbn [fst snd].
    destruct (i_kind (inst_at g p)); try contradiction. split; [reflexivity|exact F]. }
  split; [exact A|]. assert (M : NoDup (map fst (held g o))) by apply held_nodup, N. split; [exact M|].
  revert M A. induction (held g o) as [|[c p] l IH]; intros M A; [constructor|]. cbn [map fst snd] in *. apply NoDup_cons_iff in M. destruct M as (M1 & M2). apply Forall_cons_iff in A. destruct A as (A1 & A2).
  constructor; [|exact (IH M2 A2)]. intros J. apply in_map_iff in J. destruct J as ([d p'] & E & J). cbn [snd] in E. subst p'. apply M1.
  rewrite Forall_forall in A2. specialize (A2 _ J). destruct A1 as (_ & _ & V1), A2 as (_ & _ & V2). cbn [fst snd] in *. assert (c = d) by congruence. subst d. apply (in_map fst) in J. exact J.
Qed.
Lemma filled_object g h t c code base q : filled g h c code base (held g t) q -> untouched g h /\ proper h /\ object_of g h t c code base q.
Proof.
  intros (U & P & LC & CH & EC & EQ & INJ). split; [exact U|]. split; [exact P|]. split; [symmetry; exact LC|]. split; [exact CH|]. split; [exact EC|]. split.
  - intros d p H. apply EQ. apply held_in in H. apply (in_map snd) in H. exact H.
  - intros d p e p' A B. apply INJ; [apply held_in in A; apply (in_map snd) in A; exact A|apply held_in in B; apply (in_map snd) in B; exact B].
Qed.
Lemma new_obj_filled g code : proper g -> filled g (fst (new_obj code g)) (length g) code [] [] (fun x => x).
Proof.
  intros P. unfold new_obj, alloc. cbn [fst]. split; [apply alloc_untouched|]. split.
  { apply proper_alloc; [exact P|intros s y []|constructor|discriminate|discriminate|discriminate]. }
  split; [reflexivity|]. split; [rewrite app_length; cbn; lia|]. split; [rewrite alloc_inst, Nat.eqb_refl; reflexivity|]. split; [intros p []|intros p p' []].
Qed.
Lemma new_super_filled g code : proper g -> filled g (fst (new_super code g)) (length g) code [(SHandler, length g)] [] (fun x => x).
Proof.
  intros P. unfold new_super. destruct (new_obj code g) as [g1 o] eqn:E. pose proof (new_obj_filled g code P) as F. rewrite E in F. cbn [fst] in F.
  assert (o = length g) by (unfold new_obj, alloc in E; congruence). subst o. destruct F as (U & P1 & LC & CH & EC & _). cbn [fst].
  split; [apply untouched_point; [exact U|lia]|]. split.
  { apply proper_point; [exact P1|exact CH|]. rewrite EC. exact I. }
  split; [reflexivity|]. split; [rewrite point_len; exact CH|]. split.
  { rewrite point_inst, Nat.eqb_refl, (proj2 (Nat.ltb_lt _ _) CH), EC. reflexivity. }
  split; [intros p []|intros p p' []].
Qed.
Lemma obj_alt g o : proper g -> o < length g -> (exists d p, has g o (SPr d) p /\ locked g p) \/ (forall d p, has g o (SPr d) p -> ~ locked g p).
Proof.
  intros (I & _) O. assert (G : forall l : list (Z * nat), (forall c p, In (c, p) l -> p < length g) -> (exists d p, In (d, p) l /\ locked g p) \/ (forall d p, In (d, p) l -> ~ locked g p)).
  { induction l as [|[c p] l IH]; intros H; [right; intros d p []|]. destruct (locked_dec g p I (H c p (or_introl eq_refl))) as [K|K]; [left; exists c, p; split; [left; reflexivity|exact K]|].
    destruct IH as [(d & p' & J & K')|K']; [intros d p' J; apply (H d); right; exact J|left; exists d, p'; split; [right; exact J|exact K']|].
    right. intros d p' [E|J]; [assert (p' = p) as -> by congruence; exact K|exact (K' d p' J)]. }
  destruct (G (held g o)) as [(d & p & J & K)|K].
  - intros c p J. apply held_in in J. exact (I _ _ _ J).
  - left. exists d, p. split; [apply held_in, J|exact K].
  - right. intros d p H. apply (K d). apply held_in, H.
Qed.
Lemma L_C108_object : forall g o, proper g -> i_kind (inst_at g o) = KObj -> (forall d p, has g o (SPr d) p -> ~ locked g p) ->
  exists g' c q, copy_obj o g = (g', Some c) /\ untouched g g' /\ proper g' /\ object_of g g' o c (hd 0%Z (i_val (inst_at g o))) [] q.
Proof.
  intros g o P K NL. unfold copy_obj. fold (val_code (inst_at g o)). destruct (new_obj (val_code (inst_at g o)) g) as [g1 c] eqn:E. pose proof (new_obj_filled g (val_code (inst_at g o)) P) as F. rewrite E in F. cbn [fst] in F.
  assert (c = length g) by (unfold new_obj, alloc in E; congruence). subst c. rewrite held_props. destruct (held_facts g o P K) as (A & N1 & N2).
  destruct (fill_all g (val_code (inst_at g o)) [] P (fun s H => match H with end) (held g o) (length g) g1 [] _ F A N1 N2) as (h & q & -> & FH).
  { intros [d p] J. apply held_in in J. exact (NL d p J). }
  exists h, (length g), q. split; [reflexivity|]. exact (filled_object _ _ _ _ _ _ _ FH).
Qed.
Lemma L_C108_object_refused : forall g o d p, proper g -> i_kind (inst_at g o) = KObj -> has g o (SPr d) p -> locked g p -> copy_obj o g = (g, None).
Proof.
  intros g o d p P K H KL. unfold copy_obj. destruct (new_obj (val_code (inst_at g o)) g) as [g1 c] eqn:E. pose proof (new_obj_filled g (val_code (inst_at g o)) P) as F. rewrite E in F. cbn [fst] in F.
  assert (c = length g) by (unfold new_obj, alloc in E; congruence). subst c. rewrite held_props. destruct (held_facts g o P K) as (A & N1 & N2).
  destruct (fill_fails g (val_code (inst_at g o)) [] P (fun s H => match H with end) (held g o) (length g) g1 [] _ F A N1 N2) as (h & ->); [|reflexivity].
  exists (d, p). split; [apply held_in, H|exact KL].
Qed.
Lemma L_C108_standard : forall g code t, proper g -> i_kind (inst_at g t) = KObj -> (forall d p, has g t (SPr d) p -> ~ locked g p) ->
  exists g' c q, new_standard code t g = (g', Some c) /\ untouched g g' /\ proper g' /\ object_of g g' t c code [(SHandler, c)] q.
Proof.
  intros g code t P K NL. unfold new_standard. destruct (new_super code g) as [g1 c] eqn:E. pose proof (new_super_filled g code P) as F. rewrite E in F. cbn [fst] in F.
  assert (c = length g) by (unfold new_super, new_obj, alloc in E; congruence). subst c. rewrite held_props. destruct (held_facts g t P K) as (A & N1 & N2).
  destruct (fill_all g code [(SHandler, length g)] P) with (l := held g t) (c := length g) (h := g1) (ps := @nil (Z * nat)) (q := fun x : nat => x) as (h & q & -> & FH); [|exact F|exact A|exact N1|exact N2| |].
  { intros s [<-|[]]. exact I. }
  { intros [d p] J. apply held_in in J. exact (NL d p J). }
  exists h, (length g), q. split; [reflexivity|]. exact (filled_object _ _ _ _ _ _ _ FH).
Qed.
Lemma L_C108_standard_refused : forall g code t d p, proper g -> i_kind (inst_at g t) = KObj -> has g t (SPr d) p -> locked g p -> new_standard code t g = (g, None).
Proof.
  intros g code t d p P K H KL. unfold new_standard. destruct (new_super code g) as [g1 c] eqn:E. pose proof (new_super_filled g code P) as F. rewrite E in F. cbn [fst] in F.
  assert (c = length g) by (unfold new_super, new_obj, alloc in E; congruence). subst c. rewrite held_props. destruct (held_facts g t P K) as (A & N1 & N2).
  destruct (fill_fails g code [(SHandler, length g)] P) with (l := held g t) (c := length g) (h := g1) (ps := @nil (Z * nat)) (q := fun x : nat => x) as (h & ->); [|exact F|exact A|exact N1|exact N2| |reflexivity].
  { intros s [<-|[]]. exact I. }
  exists (d, p). split; [apply held_in, H|exact KL].
Qed.

(** *** Starting and stopping *)
Definition drop_at (x : nat) (f : slot -> bool) (g : graph) : graph := put_inst x (mkinst (i_kind (inst_at g x)) (i_val (inst_at g x)) (drop_refs f (i_refs (inst_at g x)))) g.
Lemma drop_len x f g : length (drop_at x f g) = length g.
Proof. apply upd_len. Qed.
Lemma drop_inst x f g z : inst_at (drop_at x f g) z = if (z =? x) && (x <? length g)
  then mkinst (i_kind (inst_at g x)) (i_val (inst_at g x)) (drop_refs f (i_refs (inst_at g x))) else inst_at g z.
Proof. unfold drop_at, put_inst, inst_at. apply nth_upd_eq. Qed.
Lemma drop_same x f g z : i_kind (inst_at (drop_at x f g) z) = i_kind (inst_at g z) /\ i_val (inst_at (drop_at x f g) z) = i_val (inst_at g z).
Proof. rewrite drop_inst. destruct (Nat.eqb_spec z x) as [->|]; cbn [andb]; [|split; reflexivity]. destruct (x <? length g); split; reflexivity. Qed.
Lemma drop_has x f g z t w : has (drop_at x f g) z t w -> has g z t w.
Proof.
  unfold has. rewrite drop_inst. destruct (Nat.eqb_spec z x) as [->|]; cbn [andb]; [|exact (fun h => h)]. destruct (x <? length g); [|exact (fun h => h)].
  cbn [i_refs]. intros H. apply filter_In in H. apply H.
Qed.
Lemma has_drop x f g z t w : (z = x -> f t = false) -> has g z t w -> has (drop_at x f g) z t w.
Proof.
  intros N H. unfold has. rewrite drop_inst. destruct (Nat.eqb_spec z x) as [->|]; cbn [andb]; [|exact H]. destruct (x <? length g); [|exact H].
  cbn [i_refs]. apply filter_In. split; [exact H|]. cbn [fst]. rewrite (N eq_refl). reflexivity.
Qed.
Lemma nodup_filter {A B} (h : A -> B) (f : A -> bool) l : NoDup (map h l) -> NoDup (map h (filter f l)).
Proof.
  induction l as [|a l IH]; cbn [map filter]; intros N; [constructor|]. apply NoDup_cons_iff in N. destruct N as (N1 & N2). destruct (f a); [|exact (IH N2)].
  cbn [map]. constructor; [|exact (IH N2)]. intros J. apply N1. apply in_map_iff in J. destruct J as (b & E & J). apply filter_In in J. apply in_map_iff. exists b. split; [exact E|apply J].
Qed.
Lemma proper_drop x f g : proper g -> f SMgr = false -> f SCond = false -> proper (drop_at x f g).
Proof.
  intros (A & B & C & D & E & F) F1 F2. split; [|split; [|split; [|split; [|split]]]].
  - intros z t w H. rewrite drop_len. exact (A _ _ _ (drop_has _ _ _ _ _ _ H)).
  - intros z. rewrite drop_inst. destruct ((z =? x) && (x <? length g)); [|apply B]. cbn [i_refs]. apply nodup_filter, B.
  - intros z t w H. rewrite (proj1 (drop_same x f g z)). destruct (drop_same x f g w) as (E1 & E2). apply (fits_same _ _ (inst_at g w) _ (eq_sym E1) (eq_sym E2)). exact (C _ _ _ (drop_has _ _ _ _ _ _ H)).
  - intros z. destruct (drop_same x f g z) as (-> & ->). apply D.
  - intros z. rewrite (proj1 (drop_same x f g z)). intros K. destruct (E z K) as (m & H). exists m. apply has_drop; [intros _; exact F1|exact H].
  - intros z. rewrite (proj1 (drop_same x f g z)). intros K. destruct (F z K) as (m & H). exists m. apply has_drop; [intros _; exact F2|exact H].
Qed.
Lemma stop_is n m g : get_ref SMgr (i_refs (inst_at g n)) = Some m -> stop_node n g = drop_at m is_server g.
Proof. intros E. unfold stop_node. rewrite E. reflexivity. Qed.
Lemma the_manager g n m : proper g -> has g n SMgr m -> get_ref SMgr (i_refs (inst_at g n)) = Some m.
Proof. intros (_ & N & _) H. apply in_get_ref; [apply N|exact H]. Qed.
Lemma manager_kind g n m : proper g -> has g n SMgr m -> i_kind (inst_at g m) = KMgr /\ m < length g /\ (i_kind (inst_at g n) = KNode \/ i_kind (inst_at g n) = KCtl).
Proof. intros (A & _ & C & _) H. specialize (C _ _ _ H). split; [|split; [exact (A _ _ _ H)|]]; unfold fits in C; destruct (i_kind (inst_at g n)), (i_kind (inst_at g m)); try contradiction; auto. Qed.
Lemma stop_manager g n m : proper g -> has g n SMgr m -> proper (drop_at m is_server g) /\ has (drop_at m is_server g) n SMgr m.
Proof.
  intros P H. split; [apply proper_drop; [exact P|reflexivity|reflexivity]|]. apply has_drop; [intros _; reflexivity|exact H].
Qed.
(** What servers leave as it was. *)
Definition keeps (m : nat) (g g' : graph) : Prop :=
  length g <= length g' /\
  (forall z, z < length g -> i_kind (inst_at g' z) = i_kind (inst_at g z) /\ i_val (inst_at g' z) = i_val (inst_at g z)) /\
  (forall z, z < length g -> z <> m -> inst_at g' z = inst_at g z) /\
  drop_refs is_server (i_refs (inst_at g' m)) = drop_refs is_server (i_refs (inst_at g m)) /\
  (forall j s, has g m (SServer j) s -> exists s', has g' m (SServer j) s').
Lemma drop_server j s l : drop_refs is_server (set_ref (SServer j) s l) = drop_refs is_server l.
Proof.
  induction l as [|[t y] l IH]; [reflexivity|]. cbn [set_ref]. destruct (slot_eqb (SServer j) t) eqn:E.
  - apply slot_eqb_eq in E. subst t. reflexivity.
  - unfold drop_refs in *. cbn [filter fst]. rewrite IH. reflexivity.
Qed.
Lemma one_server n m k g : proper g -> has g n SMgr m ->
  let g' := point m (SServer k) (length g) (g ++ [mkinst KSrv [] [(SObserver 0, n)]]) in
  proper g' /\ has g' n SMgr m /\ keeps m g g' /\ has g' m (SServer k) (length g) /\ i_kind (inst_at g' (length g)) = KSrv.
Proof.
  intros P H g'. destruct (manager_kind g n m P H) as (KM & LM & KN). pose proof (has_here _ _ _ _ H) as LN.
  set (a := g ++ [mkinst KSrv [] [(SObserver 0, n)]]) in *.
  assert (LA : length a = S (length g)) by (unfold a; rewrite app_length; cbn; lia).
  assert (AI : forall z, z < length g -> inst_at a z = inst_at g z). { intros z Z. unfold a. rewrite alloc_inst. destruct (Nat.eqb_spec z (length g)); [lia|reflexivity]. }
  assert (AS : inst_at a (length g) = mkinst KSrv [] [(SObserver 0, n)]). { unfold a. rewrite alloc_inst, Nat.eqb_refl. reflexivity. }
  assert (PA : proper a).
  { apply proper_alloc; [exact P| | |intros [X|X]; discriminate X|discriminate|discriminate].
    - intros s y [E|[]]. assert (s = SObserver 0 /\ y = n) as (-> & ->) by (split; congruence). split; [exact LN|]. unfold fits. destruct KN as [-> | ->]; exact I.
    - constructor; [intros []|constructor]. }
  assert (NM : n <> m). { intros ->. destruct KN; congruence. }
  split; [|split; [|split; [|split]]].
  - apply proper_point; [exact PA|lia|]. rewrite (AI m LM), KM, AS. exact I.
  - apply has_kept; [congruence|]. unfold has. rewrite (AI n LN). exact H.
  - split; [unfold g'; rewrite point_len; lia|]. split; [|split; [|split]].
    + intros z Z. unfold g'. destruct (point_same m (SServer k) (length g) a z) as (-> & ->). rewrite (AI z Z). split; reflexivity.
    + intros z Z N. unfold g'. rewrite point_inst. destruct (Nat.eqb_spec z m); [contradiction|]. exact (AI z Z).
    + unfold g'. rewrite point_inst, Nat.eqb_refl. destruct (m <? length a); cbn [andb]; [|rewrite (AI m LM); reflexivity]. cbn [i_refs]. rewrite drop_server, (AI m LM). reflexivity.
    + intros j s J. unfold g'. apply has_some. exists s. unfold has. rewrite (AI m LM). exact J.
  - unfold g'. apply has_point. lia.
  - unfold g'. rewrite (proj1 (point_same m (SServer k) (length g) a (length g))), AS. reflexivity.
Qed.
Lemma keeps_trans m a b c : m < length a -> keeps m a b -> keeps m b c -> keeps m a c.
Proof.
  intros LM (A1 & A2 & A3 & A4 & A5) (B1 & B2 & B3 & B4 & B5). split; [lia|]. split; [|split; [|split]].
  - intros z Z. destruct (A2 z Z) as (<- & <-). apply B2. lia.
  - intros z Z N. rewrite <- (A3 z Z N). apply B3; [lia|exact N].
  - rewrite <- A4. exact B4.
  - intros j s J. destruct (A5 j s J) as (s' & J'). exact (B5 j s' J').
Qed.
Lemma keeps_refl m a : keeps m a a.
Proof. split; [lia|]. split; [intros; split; reflexivity|]. split; [reflexivity|]. split; [reflexivity|]. intros j s J. exists s. exact J. Qed.
Lemma servers_added k : forall n m g, proper g -> has g n SMgr m ->
  proper (add_servers k n m g) /\ has (add_servers k n m g) n SMgr m /\ keeps m g (add_servers k n m g) /\
  (k <> 0 -> exists j s, has (add_servers k n m g) m (SServer j) s).
Proof.
  induction k as [|k IH]; intros n m g P H; [split; [exact P|split; [exact H|split; [apply keeps_refl|intros X; destruct (X eq_refl)]]]|].
  cbn [add_servers alloc]. destruct (one_server n m k g P H) as (P1 & H1 & K1 & S1 & _). destruct (IH n m _ P1 H1) as (P2 & H2 & K2 & _).
  split; [exact P2|]. split; [exact H2|]. split; [exact (keeps_trans m _ _ _ (proj1 (proj2 (manager_kind g n m P H))) K1 K2)|].
  intros _. exists k. apply (proj2 (proj2 (proj2 (proj2 K2))) k _ S1).
Qed.
Lemma start_is g n m k : proper g -> has g n SMgr m -> start_node k n g = add_servers k n m (drop_at m is_server g).
Proof.
  intros P H. unfold start_node. rewrite (stop_is n m g (the_manager g n m P H)). destruct (stop_manager g n m P H) as (P1 & H1).
  rewrite (the_manager _ n m P1 H1). reflexivity.
Qed.
Lemma proper_start g n m k : proper g -> has g n SMgr m -> proper (start_node k n g).
Proof. intros P H. rewrite (start_is g n m k P H). destruct (stop_manager g n m P H) as (P1 & H1). apply servers_added; assumption. Qed.
Lemma server_kind g m j s : proper g -> has g m (SServer j) s -> i_kind (inst_at g s) = KSrv.
Proof. intros (_ & _ & C & _) H. specialize (C _ _ _ H). unfold fits in C. destruct (i_kind (inst_at g m)), (i_kind (inst_at g s)); try contradiction; reflexivity. Qed.
Lemma owner_kinds g p o : proper g -> has g p SOwner o -> i_kind (inst_at g p) = KProp /\ i_kind (inst_at g o) = KObj.
Proof. intros (_ & _ & C & _) H. specialize (C _ _ _ H). unfold fits in C. destruct (i_kind (inst_at g p)), (i_kind (inst_at g o)); try contradiction; split; reflexivity. Qed.
Lemma L_C108_running_refuted : forall g p o n k, proper g -> has g p SOwner o -> has g o SNode n ->
  i_kind (inst_at g n) = KNode \/ i_kind (inst_at g n) = KCtl -> k <> 0 ->
  deep_copy (start_node k n g) p = (start_node k n g, None).
Proof.
  intros g p o n k P HP HO KN K0. destruct (proj1 (proj2 (proj2 (proj2 (proj2 P)))) n KN) as (m & HM).
  destruct (owner_kinds g p o P HP) as (KP & KO). destruct (manager_kind g n m P HM) as (KM & LM & _).
  assert (PS : proper (start_node k n g)) by exact (proper_start g n m k P HM). rewrite (start_is g n m k P HM) in *.
  destruct (stop_manager g n m P HM) as (P1 & H1). destruct (servers_added k n m _ P1 H1) as (P2 & H2 & (L & _ & SAME & _) & HS). destruct (HS K0) as (j & s & HJ).
  rewrite drop_len in L, SAME.
  assert (KEEP : forall z t w, z <> m -> has g z t w -> has (add_servers k n m (drop_at m is_server g)) z t w).
  { intros z t w N H. unfold has. rewrite (SAME z (has_here _ _ _ _ H) N). apply has_drop; [intros ->; contradiction|exact H]. }
  apply L_C108_refused; [apply PS| |].
  - pose proof (has_here _ _ _ _ HP). lia.
  - exists s. split; [|left; exact (server_kind _ m j s P2 HJ)].
    pose proof (KEEP p SOwner o ltac:(intros ->; congruence) HP) as J1. pose proof (KEEP o SNode n ltac:(intros ->; congruence) HO) as J2.
    exact (reaches_next _ _ _ _ _ (reaches_next _ _ _ _ _ (reaches_next _ _ _ _ _ (reaches_next _ _ _ _ _ (reaches_self _ _) J1) J2) H2) HJ).
Qed.
Lemma L_C108_controller_refuted : forall g p o n, proper g -> has g p SOwner o -> has g o SNode n -> i_kind (inst_at g n) = KCtl ->
  deep_copy g p = (g, None).
Proof.
  intros g p o n P HP HO KN. apply L_C108_refused; [apply P|exact (has_here _ _ _ _ HP)|]. destruct (proj2 (proj2 (proj2 (proj2 (proj2 P)))) n KN) as (c & HC).
  exists c. split.
  - eapply reaches_next; [|exact HC]. eapply reaches_next; [|exact HO]. eapply reaches_next; [apply reaches_self|exact HP].
  - right. left. pose proof (proj1 (proj2 (proj2 P)) _ _ _ HC) as F. unfold fits in F. rewrite KN in F. destruct (i_kind (inst_at g c)); try contradiction; reflexivity.
Qed.
Lemma L_C108_stopped : forall g n k x, proper g -> i_kind (inst_at g n) = KNode \/ i_kind (inst_at g n) = KCtl -> x < length g ->
  let g1 := stop_node n g in let g2 := stop_node n (start_node k n g) in
  (forall z, z < length g -> inst_at g2 z = inst_at g1 z) /\ (locked g2 x <-> locked g1 x).
Proof.
  intros g n k x P KN X g1 g2. destruct (proj1 (proj2 (proj2 (proj2 (proj2 P)))) n KN) as (m & HM). destruct (manager_kind g n m P HM) as (KM & LM & _).
  destruct (stop_manager g n m P HM) as (P1 & H1). destruct (servers_added k n m _ P1 H1) as (P2 & H2 & (L & KV & SAME & DR & _) & HS).
  assert (E1 : g1 = drop_at m is_server g) by exact (stop_is n m g (the_manager g n m P HM)).
  assert (E2 : g2 = drop_at m is_server (add_servers k n m (drop_at m is_server g))).
  { unfold g2. rewrite (start_is g n m k P HM). apply stop_is. exact (the_manager _ n m P2 H2). }
  rewrite <- E1 in *. assert (LE : length g1 = length g) by (rewrite E1; apply drop_len).
  assert (G : forall z, z < length g -> inst_at g2 z = inst_at g1 z).
  { intros z Z. rewrite E2, drop_inst. destruct (Nat.eqb_spec z m) as [->|N]; cbn [andb].
    - rewrite (proj2 (Nat.ltb_lt m _)) by lia. destruct (KV m) as (-> & ->); [lia|]. rewrite DR.
      rewrite E1, drop_inst, Nat.eqb_refl, (proj2 (Nat.ltb_lt _ _) LM). cbn [andb i_kind i_val i_refs]. f_equal.
      unfold drop_refs. induction (i_refs (inst_at g m)) as [|a l IH]; [reflexivity|]. cbn [filter]. destruct (negb (is_server (fst a))) eqn:Q; [cbn [filter]; rewrite Q, IH; reflexivity|exact IH].
    - apply SAME; [lia|exact N]. }
  split; [exact G|]. apply locked_old; [apply P1| |lia]. intros z Z. rewrite LE in Z. specialize (G z Z). unfold inst_at in G.
  assert (Z2 : z < length g2). { rewrite E2, drop_len. lia. }
  rewrite (nth_error_nth' g2 no_inst Z2), (nth_error_nth' g1 no_inst) by lia. rewrite G. reflexivity.
Qed.

(** *** Nodes *)
(** [g'] has more instances; kinds and values of those of before have not changed. *)
Definition grown (g g' : graph) : Prop := length g <= length g' /\
  forall z, z < length g -> i_kind (inst_at g' z) = i_kind (inst_at g z) /\ i_val (inst_at g' z) = i_val (inst_at g z).
Lemma grown_refl g : grown g g.
Proof. split; [lia|]. intros; split; reflexivity. Qed.
Lemma grown_trans a b c : grown a b -> grown b c -> grown a c.
Proof. intros (A1 & A2) (B1 & B2). split; [lia|]. intros z Z. destruct (A2 z Z) as (<- & <-). apply B2. lia. Qed.
Lemma grown_point x s y g : grown g (point x s y g).
Proof. split; [rewrite point_len; lia|]. intros z _. apply point_same. Qed.
Lemma grown_untouched g g' : untouched g g' -> grown g g'.
Proof. intros U. split; [exact (untouched_len g g' U)|]. intros z Z. rewrite (untouched_inst g g' z U Z). split; reflexivity. Qed.
Lemma grown_alloc g i : grown g (g ++ [i]).
Proof. apply grown_untouched, alloc_untouched. Qed.

Lemma new_node_ok k g : proper g -> k = KNode \/ k = KCtl ->
  let '(g', n) := new_node k g in
  typed g' /\ grown g g' /\ n = length g /\ (forall z, z <> n -> staffed g' z) /\ i_kind (inst_at g' n) = k /\ (exists m, has g' n SMgr m) /\ n < length g' /\
  (forall z, length g <= z < length g' -> In (i_kind (inst_at g' z)) [k; KMgr; KObj]).
Proof.
  intros P KK. apply proper_split in P. destruct P as (T & S0).
  unfold new_node, new_super, new_obj, alloc.
  set (n := length g). set (g1 := g ++ [mkinst k [] []]). set (m := length g1). set (g2 := g1 ++ [mkinst KMgr [] []]).
  set (g3 := point n SMgr m g2). set (p := length g3). set (g4 := g3 ++ [mkinst KObj [978945%Z] []]). set (g5 := point p SHandler p g4).
  set (g6 := point n SProfile p g5).
  assert (L1 : length g1 = S n) by (unfold g1, n; rewrite app_length; cbn; lia).
  assert (L2 : length g2 = S (S n)) by (unfold g2; rewrite app_length; cbn; lia).
  assert (L3 : length g3 = S (S n)) by (unfold g3; rewrite point_len; exact L2).
  assert (L4 : length g4 = S (S (S n))) by (unfold g4; rewrite app_length; cbn; lia).
  assert (M : m = S n) by exact L1. assert (PP : p = S (S n)) by exact L3.
  assert (I1 : inst_at g1 n = mkinst k [] []) by (unfold g1, n; rewrite alloc_inst, Nat.eqb_refl; reflexivity).
  assert (T1 : typed g1). { apply typed_alloc; [exact T|intros s y []|constructor|]. destruct KK as [-> | ->]; intros [H|H]; discriminate H. }
  assert (S1 : forall z, z <> n -> staffed g1 z) by (intros z N; apply staffed_alloc; [exact N|apply S0]).
  assert (I2n : inst_at g2 n = mkinst k [] []). { unfold g2. rewrite alloc_inst. destruct (Nat.eqb_spec n (length g1)); [lia|exact I1]. }
  assert (I2m : inst_at g2 m = mkinst KMgr [] []). { unfold g2, m. rewrite alloc_inst, Nat.eqb_refl. reflexivity. }
  assert (T2 : typed g2). { apply typed_alloc; [exact T1|intros s y []|constructor|intros [H|H]; discriminate H]. }
  assert (S2 : forall z, z <> n -> staffed g2 z).
  { intros z N. destruct (Nat.eq_dec z m) as [->|Nm]; [|apply staffed_alloc; [exact Nm|exact (S1 z N)]]. unfold staffed. rewrite I2m. cbn [i_kind]. split; [intros [H|H]; discriminate H|intros H; discriminate H]. }
  assert (T3 : typed g3). { apply typed_point; [exact T2|lia|]. rewrite I2n, I2m. destruct KK as [-> | ->]; exact I. }
  assert (S3 : forall z, z <> n -> staffed g3 z) by (intros z N; apply staffed_point, S2, N).
  assert (H3 : has g3 n SMgr m) by (apply has_point; lia).
  assert (I4p : inst_at g4 p = mkinst KObj [978945%Z] []). { unfold g4, p. rewrite alloc_inst, Nat.eqb_refl. reflexivity. }
  assert (T4 : typed g4). { apply typed_alloc; [exact T3|intros s y []|constructor|discriminate]. }
  assert (S4 : forall z, z <> n -> staffed g4 z).
  { intros z N. destruct (Nat.eq_dec z p) as [->|Np]; [|apply staffed_alloc; [exact Np|exact (S3 z N)]]. unfold staffed. rewrite I4p. cbn [i_kind]. split; [intros [H|H]; discriminate H|intros H; discriminate H]. }
  assert (H4 : exists w, has g4 n SMgr w). { exists m. unfold has, g4. rewrite alloc_inst. destruct (Nat.eqb_spec n (length g3)); [lia|exact H3]. }
  assert (K4 : i_kind (inst_at g4 n) = k). { unfold g4. rewrite alloc_inst. destruct (Nat.eqb_spec n (length g3)); [lia|]. unfold g3. rewrite (proj1 (point_same _ _ _ _ _)), I2n. reflexivity. }
  assert (E5 : forall z, i_kind (inst_at g5 z) = i_kind (inst_at g4 z) /\ i_val (inst_at g5 z) = i_val (inst_at g4 z)) by (intros; apply point_same).
  assert (E6 : forall z, i_kind (inst_at g6 z) = i_kind (inst_at g4 z) /\ i_val (inst_at g6 z) = i_val (inst_at g4 z)).
  { intros z. unfold g6. destruct (point_same n SProfile p g5 z) as (-> & ->). apply E5. }
  assert (L6 : length g6 = S (S (S n))) by (unfold g6, g5; rewrite !point_len; exact L4).
  assert (T5 : typed g5). { apply typed_point; [exact T4|lia|]. rewrite I4p. exact I. }
  assert (T6 : typed g6).
  { apply typed_point; [exact T5|unfold g5; rewrite point_len; lia|]. rewrite (proj1 (E5 n)), K4. unfold fits. rewrite (proj1 (E5 p)), I4p. destruct KK as [-> | ->]; exact I. }
  assert (VC : val_code (inst_at g6 p) = 978945%Z) by (unfold val_code; rewrite (proj2 (E6 p)), I4p; reflexivity).
  unfold add_obj. rewrite VC. set (g7 := point n (SObj 978945) p g6).
  assert (E7 : forall z, i_kind (inst_at g7 z) = i_kind (inst_at g4 z) /\ i_val (inst_at g7 z) = i_val (inst_at g4 z)).
  { intros z. unfold g7. destruct (point_same n (SObj 978945) p g6 z) as (-> & ->). apply E6. }
  assert (T7 : typed g7).
  { apply typed_point; [exact T6|lia|]. rewrite (proj1 (E6 n)), K4. unfold fits. rewrite (proj1 (E6 p)), (proj2 (E6 p)), I4p. destruct KK as [-> | ->]; reflexivity. }
  assert (L7 : length g7 = S (S (S n))) by (unfold g7; rewrite point_len; exact L6).
  assert (E8 : forall z, i_kind (inst_at (point p SNode n g7) z) = i_kind (inst_at g4 z)) by (intros z; rewrite (proj1 (point_same p SNode n g7 z)); apply E7).
  split; [|split; [|split; [|split; [|split; [|split; [|split]]]]]].
  - apply typed_point; [exact T7|lia|]. rewrite (proj1 (E7 p)), I4p. unfold fits. rewrite (proj1 (E7 n)), K4. destruct KK as [-> | ->]; exact I.
  - unfold g7, g6, g5. do 4 (eapply grown_trans; [|apply grown_point]). unfold g4, g3. eapply grown_trans; [|apply grown_alloc]. eapply grown_trans; [|apply grown_point].
    unfold g2, g1. eapply grown_trans; [|apply grown_alloc]. apply grown_alloc.
  - reflexivity.
  - intros z N. unfold g7, g6, g5. do 4 apply staffed_point. exact (S4 z N).
  - rewrite E8. exact K4.
  - unfold g7, g6, g5. do 4 apply has_some. exact H4.
  - rewrite point_len. lia.
  - intros z Z. rewrite E8. rewrite point_len, L7 in Z. fold n in Z. assert (z = n \/ z = m \/ z = p) as [-> |[-> | ->]] by lia.
    + rewrite K4. left. reflexivity.
    + unfold g4. rewrite alloc_inst. destruct (Nat.eqb_spec m (length g3)); [lia|]. unfold g3. rewrite (proj1 (point_same _ _ _ _ _)), I2m. right. left. reflexivity.
    + rewrite I4p. right. right. left. reflexivity.
Qed.
Lemma proper_node g : proper g -> proper (fst (new_node KNode g)) /\ grown g (fst (new_node KNode g)).
Proof.
  intros P. pose proof (new_node_ok KNode g P (or_introl eq_refl)) as H. destruct (new_node KNode g) as [g' n]. destruct H as (T & G & _ & S1 & K & M & _). cbn [fst]. split; [|exact G].
  apply proper_split. split; [exact T|]. intros z. destruct (Nat.eq_dec z n) as [->|N]; [|exact (S1 z N)]. split; [intros _; exact M|rewrite K; discriminate].
Qed.
Lemma proper_controller g : proper g -> proper (fst (new_controller g)) /\ grown g (fst (new_controller g)).
Proof.
  intros P. unfold new_controller, alloc. pose proof (new_node_ok KCtl g P (or_intror eq_refl)) as H. destruct (new_node KCtl g) as [g1 n]. destruct H as (T & G & _ & S1 & K & M & LN & _). cbn [fst].
  split; [|eapply grown_trans; [exact G|]; eapply grown_trans; [apply grown_alloc|apply grown_point]].
  set (g2 := g1 ++ [mkinst KCond [] []]). assert (L2 : length g2 = S (length g1)) by (unfold g2; rewrite app_length; cbn; lia).
  assert (I2 : inst_at g2 n = inst_at g1 n). { unfold g2. rewrite alloc_inst. destruct (Nat.eqb_spec n (length g1)); [lia|reflexivity]. }
  assert (Ic : inst_at g2 (length g1) = mkinst KCond [] []). { unfold g2. rewrite alloc_inst, Nat.eqb_refl. reflexivity. }
  apply proper_split. split.
  - apply typed_point; [|lia|rewrite I2, K, Ic; exact I]. apply typed_alloc; [exact T|intros s y []|constructor|intros [H|H]; discriminate H].
  - intros z. destruct (Nat.eq_dec z n) as [->|N].
    + split; [intros _; apply has_some; destruct M as (m & M); exists m; unfold has; rewrite I2; exact M|intros _; exists (length g1); apply has_point; lia].
    + apply staffed_point. destruct (Nat.eq_dec z (length g1)) as [->|N1]; [|apply staffed_alloc; [exact N1|exact (S1 z N)]].
      unfold staffed. rewrite Ic. cbn [i_kind]. split; [intros [H|H]; discriminate H|intros H; discriminate H].
Qed.

(** *** Found nodes *)
Lemma proper_add_obj g n o : proper g -> n < length g -> o < length g -> i_kind (inst_at g o) = KObj ->
  i_kind (inst_at g n) = KNode \/ i_kind (inst_at g n) = KCtl \/ i_kind (inst_at g n) = KRemote -> proper (add_obj n o g).
Proof.
  intros P LN LO KO KN. unfold add_obj. assert (V : i_val (inst_at g o) <> []) by (apply P; right; exact KO).
  assert (P1 : proper (point n (SObj (val_code (inst_at g o))) o g)).
  { apply proper_point; [exact P|exact LO|]. unfold fits. rewrite KO. unfold val_code. destruct (i_val (inst_at g o)) as [|v r]; [destruct (V eq_refl)|]. destruct KN as [-> |[-> | ->]]; reflexivity. }
  apply proper_point; [exact P1|rewrite point_len; exact LN|]. rewrite (proj1 (point_same _ _ _ _ o)), KO. unfold fits. rewrite (proj1 (point_same _ _ _ _ n)). destruct KN as [-> |[-> | ->]]; exact I.
Qed.
Lemma grown_add_obj g n o : grown g (add_obj n o g).
Proof. unfold add_obj. eapply grown_trans; apply grown_point. Qed.
(** The objects of remote node [n] belong to it, and their properties to them. *)
Definition its (g : graph) (n : nat) : Prop := forall d o, has g n (SObj d) o -> has g o SNode n /\ forall e p, has g o (SPr e) p -> has g p SOwner o.
Lemma obj_kind g n d o : proper g -> has g n (SObj d) o -> i_kind (inst_at g o) = KObj.
Proof. intros (_ & _ & C & _) H. specialize (C _ _ _ H). unfold fits in C. destruct (i_kind (inst_at g n)), (i_kind (inst_at g o)); try contradiction; reflexivity. Qed.
Lemma prop_kind g o d p : proper g -> has g o (SPr d) p -> i_kind (inst_at g p) = KProp /\ i_kind (inst_at g o) = KObj.
Proof. intros (_ & _ & C & _) H. specialize (C _ _ _ H). unfold fits in C. destruct (i_kind (inst_at g o)), (i_kind (inst_at g p)); try contradiction; split; reflexivity. Qed.
Lemma add_found_ok : forall ts n g, proper g -> n < length g -> i_kind (inst_at g n) = KRemote -> its g n ->
  (forall c t, In (c, t) ts -> t < length g /\ i_kind (inst_at g t) = KObj) ->
  match add_found n ts g with
  | (g', true) => proper g' /\ grown g g' /\ its g' n
  | (_, false) => True
  end.
Proof.
  induction ts as [|[c t] ts IH]; intros n g P LN KN IT HT; cbn [add_found].
  - split; [exact P|]. split; [apply grown_refl|exact IT].
  - destruct (HT c t (or_introl eq_refl)) as (LT & KT). destruct (obj_alt g t P LT) as [(d & p & H & K)|NL].
    { rewrite (L_C108_standard_refused g c t d p P KT H K). exact I. }
    destruct (L_C108_standard g c t P KT NL) as (g1 & o & q & -> & U & P1 & (EO & LO & IO & IQ & _)).
    pose proof (grown_untouched g g1 U) as G1. destruct G1 as (L1 & KV1). destruct (KV1 n LN) as (KN1 & _).
    assert (KO : i_kind (inst_at g1 o) = KObj) by (rewrite IO; reflexivity).
    assert (P2 : proper (add_obj n o g1)) by (apply proper_add_obj; [exact P1|lia|exact LO|exact KO|right; right; congruence]).
    destruct (grown_add_obj g1 n o) as (L2 & KV2). assert (NO : n <> o) by lia.
    assert (IT2 : its (add_obj n o g1) n).
    { assert (HN : forall z s w, z <> n -> z <> o -> has (add_obj n o g1) z s w <-> has g1 z s w).
      { intros z s w A B. unfold has, add_obj. rewrite !point_inst. destruct (Nat.eqb_spec z o); [contradiction|]. destruct (Nat.eqb_spec z n); [contradiction|]. cbn [andb]. reflexivity. }
      assert (HO : forall s w, has (add_obj n o g1) o s w -> (s = SNode /\ w = n) \/ has g1 o s w).
      { intros s w H. unfold add_obj in H. destruct (point_has _ _ _ _ _ _ _ H) as [(_ & -> & ->)|J]; [left; auto|]. destruct (point_has _ _ _ _ _ _ _ J) as [(E & _)|J']; [congruence|right; exact J']. }
      intros d o' H. unfold add_obj in H. destruct (point_has _ _ _ _ _ _ _ H) as [(E & _)|J]; [congruence|]. destruct (point_has _ _ _ _ _ _ _ J) as [(_ & _ & ->)|J'].
      - split.
        + unfold add_obj. apply has_point. rewrite point_len. exact LO.
        + intros e p HP. destruct (HO _ _ HP) as [(E & _)|HP1]; [discriminate E|]. unfold has in HP1. rewrite IO in HP1. cbn [i_refs] in HP1. destruct HP1 as [HP1|HP1]; [discriminate HP1|].
          apply in_map_iff in HP1. destruct HP1 as ([e' p'] & E & HP1). cbn [fst snd] in E. assert (p = q p') by congruence. subst p. apply held_in in HP1.
          destruct (IQ _ _ HP1) as (QL & QI). apply HN; [lia|lia|]. unfold has. rewrite QI. left. reflexivity.
      - unfold has in J'. rewrite (untouched_inst g g1 n U LN) in J'. destruct (IT d o' J') as (I1 & I2). pose proof (has_here _ _ _ _ I1) as LO'. pose proof (obj_kind g n d o' P J') as KO'.
        assert (NN : o' <> n) by (intros ->; congruence). split.
        + apply HN; [exact NN|lia|]. unfold has. rewrite (untouched_inst g g1 o' U LO'). exact I1.
        + intros e p HP. apply HN in HP; [|exact NN|lia]. unfold has in HP. rewrite (untouched_inst g g1 o' U LO') in HP. specialize (I2 e p HP). pose proof (has_here _ _ _ _ I2) as LP.
          destruct (prop_kind g o' e p P HP) as (KP & _). apply HN; [intros ->; congruence|lia|]. unfold has. rewrite (untouched_inst g g1 p U LP). exact I2. }
    assert (HT2 : forall c' t', In (c', t') ts -> t' < length (add_obj n o g1) /\ i_kind (inst_at (add_obj n o g1) t') = KObj).
    { intros c' t' J. destruct (HT c' t' (or_intror J)) as (A & B). split; [lia|]. rewrite (proj1 (KV2 t' ltac:(lia))), (proj1 (KV1 t' A)). exact B. }
    pose proof (IH n _ P2 ltac:(lia) ltac:(rewrite (proj1 (KV2 n ltac:(lia))); congruence) IT2 HT2) as R. destruct (add_found n ts (add_obj n o g1)) as [g' [|]]; [|exact I].
    destruct R as (PR & GR & IR). split; [exact PR|]. split; [|exact IR]. eapply grown_trans; [|exact GR]. eapply grown_trans; [exact (grown_untouched g g1 U)|apply grown_add_obj].
Qed.
Lemma hear_ok g c ip ts : proper g -> i_kind (inst_at g c) = KCtl -> (forall d t, In (d, t) ts -> i_kind (inst_at g t) = KObj) ->
  match hear_node c ip ts g with
  | (g', Some n) => proper g' /\ grown g g' /\ its g' n /\ has g' n SCtl c /\ i_kind (inst_at g' c) = KCtl /\ n < length g'
  | (g', None) => g' = g
  end.
Proof.
  intros P KC HT. unfold hear_node, alloc. set (g1 := g ++ [mkinst KRemote [] []]). set (n := length g).
  assert (IN : forall z, i_kind (inst_at g z) = KCtl \/ i_kind (inst_at g z) = KObj -> z < length g).
  { intros z K. destruct (Nat.lt_ge_cases z (length g)) as [L|L]; [exact L|]. rewrite (inst_far g z L) in K. destruct K as [K|K]; discriminate K. }
  pose proof (IN c (or_introl KC)) as LC.
  assert (P1 : proper g1). { apply proper_alloc; [exact P|intros s y []|constructor|intros [H|H]; discriminate H|discriminate|discriminate]. }
  assert (L1 : length g1 = S n) by (unfold g1; rewrite app_length; cbn; unfold n; lia).
  assert (OLD : forall z, z < n -> inst_at g1 z = inst_at g z). { intros z Z. unfold g1. rewrite alloc_inst. fold n. destruct (Nat.eqb_spec z n); [lia|reflexivity]. }
  assert (N1 : inst_at g1 n = mkinst KRemote [] []). { unfold g1, n. rewrite alloc_inst, Nat.eqb_refl. reflexivity. }
  assert (R : match add_found n ts g1 with (g', true) => proper g' /\ grown g1 g' /\ its g' n | (_, false) => True end).
  { apply add_found_ok; [exact P1|lia|rewrite N1; reflexivity|intros d o H; unfold has in H; rewrite N1 in H; contradiction|].
    intros d t J. pose proof (HT d t J) as K. pose proof (IN t (or_intror K)) as LT. split; [lia|]. rewrite (OLD t LT). exact K. }
  destruct (add_found n ts g1) as [g2 [|]]; [|reflexivity]. destruct R as (P2 & (L2 & KV2) & IT).
  assert (K2 : i_kind (inst_at g2 c) = KCtl). { rewrite (proj1 (KV2 c ltac:(unfold n in *; lia))), (OLD c LC). exact KC. }
  assert (K2n : i_kind (inst_at g2 n) = KRemote). { rewrite (proj1 (KV2 n ltac:(lia))), N1. reflexivity. }
  assert (NC : n <> c) by (unfold n; lia).
  set (g3 := point c (SFound ip) n g2). assert (P3 : proper g3). { apply proper_point; [exact P2|lia|]. rewrite K2. unfold fits. rewrite K2n. exact I. }
  assert (P4 : proper (point n SCtl c g3)).
  { apply proper_point; [exact P3|unfold g3; rewrite point_len; unfold n in *; lia|]. unfold g3. rewrite (proj1 (point_same _ _ _ _ n)), K2n. unfold fits. rewrite (proj1 (point_same _ _ _ _ c)), K2. exact I. }
  split; [exact P4|]. split; [|split; [|split; [|split]]].
  - eapply grown_trans; [apply grown_alloc|]. fold g1. eapply grown_trans; [split; [exact L2|exact KV2]|]. unfold g3. eapply grown_trans; apply grown_point.
  - assert (SAME : forall z s w, z <> c -> z <> n -> has (point n SCtl c g3) z s w <-> has g2 z s w).
    { intros z s w A B. unfold has, g3. rewrite !point_inst. destruct (Nat.eqb_spec z n); [contradiction|]. destruct (Nat.eqb_spec z c); [contradiction|]. cbn [andb]. reflexivity. }
    intros d o H. destruct (point_has _ _ _ _ _ _ _ H) as [(_ & E & _)|J]; [discriminate E|]. destruct (point_has _ _ _ _ _ _ _ J) as [(_ & E & _)|J']; [discriminate E|].
    destruct (IT d o J') as (I1 & I2). pose proof (obj_kind g2 n d o P2 J') as KO. assert (o <> c) by (intros ->; congruence). assert (o <> n) by (intros ->; congruence). split.
    + apply SAME; assumption.
    + intros e p HP. apply SAME in HP; [|assumption|assumption]. destruct (prop_kind g2 o e p P2 HP) as (KP & _). apply SAME; [intros ->; congruence|intros ->; congruence|]. exact (I2 e p HP).
  - apply has_point. unfold g3. rewrite point_len. lia.
  - rewrite (proj1 (point_same _ _ _ _ c)). unfold g3. rewrite (proj1 (point_same _ _ _ _ c)). exact K2.
  - rewrite point_len. unfold g3. rewrite point_len. lia.
Qed.
Lemma L_C108_found_refuted : forall g c ip ts g' n, proper g -> i_kind (inst_at g c) = KCtl -> (forall d t, In (d, t) ts -> i_kind (inst_at g t) = KObj) ->
  hear_node c ip ts g = (g', Some n) ->
  forall d o e p, has g' n (SObj d) o -> has g' o (SPr e) p -> deep_copy g' p = (g', None) /\ copy_obj o g' = (g', None).
Proof.
  intros g c ip ts g' n P KC HT E d o e p HO HP. pose proof (hear_ok g c ip ts P KC HT) as R. rewrite E in R. destruct R as (P' & _ & IT & HC & KC' & _).
  destruct (IT d o HO) as (I1 & I2). specialize (I2 e p HP). destruct (proj2 (proj2 (proj2 (proj2 (proj2 P')))) c KC') as (q & HQ).
  assert (L : locked g' p).
  { exists q. split.
    - exact (reaches_next _ _ _ _ _ (reaches_next _ _ _ _ _ (reaches_next _ _ _ _ _ (reaches_next _ _ _ _ _ (reaches_self _ _) I2) I1) HC) HQ).
    - right. left. pose proof (proj1 (proj2 (proj2 P')) _ _ _ HQ) as F. unfold fits in F. rewrite KC' in F. destruct (i_kind (inst_at g' q)); try contradiction; reflexivity. }
  split; [apply L_C108_refused; [apply P'|exact (has_here _ _ _ _ I2)|exact L]|]. apply (L_C108_object_refused g' o e p P' (obj_kind g' n d o P' HO) HP L).
Qed.

(** *** All programs *)
(** Kinds other than those of before and those of [ks] do not appear. *)
Definition among (ks : list kind) (g g' : graph) : Prop :=
  forall z, z < length g' -> (exists y, y < length g /\ i_kind (inst_at g' z) = i_kind (inst_at g y)) \/ In (i_kind (inst_at g' z)) ks.
Lemma among_grown ks g g' : grown g g' -> (forall z, length g <= z < length g' -> (exists y, y < length g /\ i_kind (inst_at g' z) = i_kind (inst_at g y)) \/ In (i_kind (inst_at g' z)) ks) -> among ks g g'.
Proof. intros (L & KV) H z Z. destruct (Nat.lt_ge_cases z (length g)) as [A|A]; [left; exists z; split; [exact A|apply KV, A]|]. apply H. lia. Qed.
Lemma among_trans ks a b c : among ks a b -> among ks b c -> among ks a c.
Proof. intros A B z Z. destruct (B z Z) as [(y & L & E)|J]; [|right; exact J]. rewrite E. exact (A y L). Qed.
Lemma among_same ks g g' : length g' = length g -> (forall z, i_kind (inst_at g' z) = i_kind (inst_at g z)) -> among ks g g'.
Proof. intros L H z Z. left. exists z. split; [lia|apply H]. Qed.
Lemma among_alloc ks g i : In (i_kind i) ks -> among ks g (g ++ [i]).
Proof. intros H z Z. rewrite app_length in Z. cbn [length] in Z. rewrite alloc_inst. destruct (Nat.eqb_spec z (length g)); [right; exact H|left; exists z; split; [lia|reflexivity]]. Qed.
Lemma among_copy ks g g' x f : copy_of g g' x f -> intact g -> x < length g -> untouched g g' -> among ks g g'.
Proof.
  intros (C1 & _ & C3) I X U. apply among_grown; [exact (grown_untouched g g' U)|]. intros z Z. destruct (C3 z Z) as (k & R & ->). left. exists k.
  split; [exact (reaches_here g x k I X R)|]. rewrite (proj2 (C1 k R)). reflexivity.
Qed.
Lemma kind_obj g o : i_kind (inst_at g o) = KObj -> o < length g.
Proof. intros K. destruct (Nat.lt_ge_cases o (length g)) as [L|L]; [exact L|]. rewrite (inst_far g o L) in K. discriminate K. Qed.
Lemma into_among ks : forall l o g, proper g -> i_kind (inst_at g o) = KObj -> (forall p, In p l -> i_kind (inst_at g p) = KProp) -> among ks g (fst (copy_into o l g)).
Proof.
  induction l as [|p l IH]; intros o g P KO HL; cbn [copy_into]; [apply among_same; reflexivity|].
  pose proof (HL p (or_introl eq_refl)) as KP. assert (LP : p < length g). { destruct (Nat.lt_ge_cases p (length g)) as [L|L]; [exact L|]. rewrite (inst_far g p L) in KP. discriminate KP. }
  destruct (deep_cases g p P LP) as [(K & E)|(K & g1 & f & E & U & C & P1)]; rewrite E; [apply among_same; reflexivity|].
  pose proof (kind_obj g o KO) as LO. pose proof (grown_untouched g g1 U) as (L1 & KV1). destruct C as (C1 & C2 & C3). destruct (C1 p (reaches_self _ _)) as (FL & FE).
  set (g2 := add_prop o (f p) g1).
  assert (S2 : forall z, i_kind (inst_at g2 z) = i_kind (inst_at g1 z)). { intros z. unfold g2, add_prop. rewrite (proj1 (point_same _ _ _ _ z)), (proj1 (point_same _ _ _ _ z)). reflexivity. }
  assert (L2 : length g2 = length g1) by (unfold g2, add_prop; rewrite !point_len; reflexivity).
  assert (KQ : i_kind (inst_at g1 (f p)) = KProp) by (rewrite FE; exact KP).
  assert (KO1 : i_kind (inst_at g1 o) = KObj) by (rewrite (proj1 (KV1 o LO)); exact KO).
  eapply among_trans; [exact (among_copy ks g g1 p f (conj C1 (conj C2 C3)) (proj1 P) LP U)|]. eapply among_trans; [exact (among_same ks g1 g2 L2 S2)|].
  apply IH.
  - unfold g2, add_prop. assert (V : i_val (inst_at g1 (f p)) <> []) by (apply P1; left; exact KQ). apply proper_point.
    + apply proper_point; [exact P1|lia|]. rewrite KO1. unfold fits. rewrite KQ. unfold val_code. destruct (i_val (inst_at g1 (f p))); [destruct (V eq_refl)|reflexivity].
    + rewrite point_len. lia.
    + rewrite (proj1 (point_same _ _ _ _ (f p))), KQ. unfold fits. rewrite (proj1 (point_same _ _ _ _ o)), KO1. exact I.
  - rewrite S2. exact KO1.
  - intros z J. rewrite S2. pose proof (HL z (or_intror J)) as KZ. assert (LZ : z < length g). { destruct (Nat.lt_ge_cases z (length g)) as [L|L]; [exact L|]. rewrite (inst_far g z L) in KZ. discriminate KZ. }
    rewrite (proj1 (KV1 z LZ)). exact KZ.
Qed.
Lemma is_true f g x : is f g x = true -> x < length g /\ f (i_kind (inst_at g x)) = true.
Proof. unfold is. intros H. apply andb_true_iff in H. destruct H as (A & B). split; [apply Nat.ltb_lt, A|exact B]. Qed.
Lemma is_obj_eq k : is_obj k = true -> k = KObj.
Proof. destruct k; try discriminate; reflexivity. Qed.
Lemma is_prop_eq k : is_prop k = true -> k = KProp.
Proof. destruct k; try discriminate; reflexivity. Qed.
Lemma copy_obj_alt g o : proper g -> i_kind (inst_at g o) = KObj -> o < length g ->
  (exists d p, has g o (SPr d) p /\ locked g p /\ copy_obj o g = (g, None)) \/
  (exists g' c, copy_obj o g = (g', Some c) /\ proper g' /\ untouched g g').
Proof.
  intros P K L. destruct (obj_alt g o P L) as [(d & p & H & KL)|NL].
  - left. exists d, p. split; [exact H|]. split; [exact KL|]. exact (L_C108_object_refused g o d p P K H KL).
  - right. destruct (L_C108_object g o P K NL) as (g' & c & q & E & U & P' & _). exists g', c. auto.
Qed.
Lemma standard_alt g code t : proper g -> i_kind (inst_at g t) = KObj -> t < length g ->
  (exists d p, has g t (SPr d) p /\ locked g p /\ new_standard code t g = (g, None)) \/
  (exists g' c, new_standard code t g = (g', Some c) /\ proper g' /\ untouched g g').
Proof.
  intros P K L. destruct (obj_alt g t P L) as [(d & p & H & KL)|NL].
  - left. exists d, p. split; [exact H|]. split; [exact KL|]. exact (L_C108_standard_refused g code t d p P K H KL).
  - right. destruct (L_C108_standard g code t P K NL) as (g' & c & q & E & U & P' & _). exists g', c. auto.
Qed.
Lemma proper_add_prop g o p : proper g -> o < length g -> p < length g -> i_kind (inst_at g o) = KObj -> i_kind (inst_at g p) = KProp -> proper (add_prop o p g).
Proof.
  intros P LO LP KO KP. unfold add_prop. assert (V : i_val (inst_at g p) <> []) by (apply P; left; exact KP). apply proper_point.
  - apply proper_point; [exact P|exact LP|]. rewrite KO. unfold fits. rewrite KP. unfold val_code. destruct (i_val (inst_at g p)); [destruct (V eq_refl)|reflexivity].
  - rewrite point_len. exact LO.
  - rewrite (proj1 (point_same _ _ _ _ p)), KP. unfold fits. rewrite (proj1 (point_same _ _ _ _ o)), KO. exact I.
Qed.
Lemma step_proper g c : proper g -> proper (fst (cstep g c)).
Proof.
  intros P. destruct c; cbn [cstep].
  - cbn [fst new_prop alloc]. apply proper_alloc; [exact P|intros s y []|constructor|discriminate|discriminate|discriminate].
  - apply (new_obj_filled g code P).
  - apply (new_super_filled g code P).
  - apply proper_node, P.
  - apply proper_controller, P.
  - cbn [fst alloc]. apply proper_alloc; [exact P|intros s y []|constructor|intros [H|H]; discriminate H|discriminate|discriminate].
  - destruct (is is_obj g o && is is_prop g p) eqn:G; [|exact P]. apply andb_true_iff in G. destruct G as (G1 & G2). apply is_true in G1, G2. destruct G1 as (A1 & A2), G2 as (B1 & B2).
    apply proper_add_prop; [exact P|exact A1|exact B1|exact (is_obj_eq _ A2)|exact (is_prop_eq _ B2)].
  - destruct (is is_node g n && is is_obj g o) eqn:G; [|exact P]. apply andb_true_iff in G. destruct G as (G1 & G2). apply is_true in G1, G2. destruct G1 as (A1 & A2), G2 as (B1 & B2).
    apply proper_add_obj; [exact P|exact A1|exact B1|exact (is_obj_eq _ B2)|]. destruct (i_kind (inst_at g n)); try discriminate A2; auto.
  - destruct (is is_obj g o && (is is_user g u || is is_obj g u)) eqn:G; [|exact P]. apply andb_true_iff in G. destruct G as (G1 & G2). apply is_true in G1. destruct G1 as (A1 & A2).
    assert (G3 : u < length g /\ (is_user (i_kind (inst_at g u)) = true \/ is_obj (i_kind (inst_at g u)) = true)). { apply orb_true_iff in G2. destruct G2 as [H|H]; apply is_true in H; split; tauto. }
    apply proper_point; [exact P|apply G3|]. rewrite (is_obj_eq _ A2). unfold fits. destruct G3 as (_ & G3). destruct (i_kind (inst_at g u)); try exact I; destruct G3; discriminate.
  - destruct (is is_obj g o && is is_user g u) eqn:G; [|exact P]. apply andb_true_iff in G. destruct G as (G1 & G2). apply is_true in G1, G2. destruct G1 as (A1 & A2), G2 as (B1 & B2).
    apply proper_point; [exact P|exact B1|]. rewrite (is_obj_eq _ A2). unfold fits. destruct (i_kind (inst_at g u)); try discriminate B2; exact I.
  - destruct (is is_local g n) eqn:G; [|exact P]. apply is_true in G. destruct G as (A1 & A2).
    destruct (proj1 (proj2 (proj2 (proj2 (proj2 P)))) n) as (m & HM); [destruct (i_kind (inst_at g n)); try discriminate A2; auto|]. exact (proper_start g n m k P HM).
  - destruct (is is_local g n) eqn:G; [|exact P]. apply is_true in G. destruct G as (A1 & A2).
    destruct (proj1 (proj2 (proj2 (proj2 (proj2 P)))) n) as (m & HM); [destruct (i_kind (inst_at g n)); try discriminate A2; auto|]. cbn [fst]. rewrite (stop_is n m g (the_manager g n m P HM)). apply (stop_manager g n m P HM).
  - destruct (is is_obj g t) eqn:G; [|exact P]. apply is_true in G. destruct G as (A1 & A2). destruct (standard_alt g code t P (is_obj_eq _ A2) A1) as [(d & p & _ & _ & ->)|(g' & c & -> & P' & _)]; [exact P|exact P'].
  - destruct (is is_ctl g c && forallb (fun p => is is_obj g (snd p)) ts) eqn:G; [|exact P]. apply andb_true_iff in G. destruct G as (G1 & G2). apply is_true in G1. destruct G1 as (A1 & A2).
    pose proof (hear_ok g c ip ts P) as R. destruct (hear_node c ip ts g) as [g' [n|]].
    + apply R; [destruct (i_kind (inst_at g c)); try discriminate A2; reflexivity|]. intros d t J. rewrite forallb_forall in G2. specialize (G2 _ J). apply is_true in G2. exact (is_obj_eq _ (proj2 G2)).
    + cbn [made fst]. rewrite R; [exact P|destruct (i_kind (inst_at g c)); try discriminate A2; reflexivity|]. intros d t J. rewrite forallb_forall in G2. specialize (G2 _ J). apply is_true in G2. exact (is_obj_eq _ (proj2 G2)).
  - destruct (is is_prop g p) eqn:G; [|exact P]. apply is_true in G. destruct G as (A1 & A2). destruct (deep_cases g p P A1) as [(_ & ->)|(_ & g' & f & -> & _ & _ & P')]; [exact P|exact P'].
  - destruct (is is_obj g o) eqn:G; [|exact P]. apply is_true in G. destruct G as (A1 & A2). destruct (copy_obj_alt g o P (is_obj_eq _ A2) A1) as [(d & p & _ & _ & ->)|(g' & c & -> & P' & _)]; [exact P|exact P'].
Qed.
Lemma nil_proper : proper [].
Proof.
  assert (E : forall x, inst_at [] x = no_inst) by (intros [|x]; reflexivity). unfold proper, intact, has.
  split; [|split; [|split; [|split; [|split]]]]; intros x; rewrite E; cbn; try contradiction; try (intros [H|H]; discriminate H); try discriminate. constructor.
Qed.
Lemma L_C108_proper : forall prog, proper (fst (crun [] prog)).
Proof.
  assert (G : forall prog g, proper g -> proper (fst (crun g prog))).
  { induction prog as [|c r IH]; intros g P; cbn [crun]; [exact P|]. pose proof (step_proper g c P) as P1. destruct (cstep g c) as [g1 a]. cbn [fst] in P1. specialize (IH g1 P1). destruct (crun g1 r) as [g2 al]. exact IH. }
  intros prog. apply G, nil_proper.
Qed.
Definition plain (g : graph) : Prop := forall z, z < length g -> In (i_kind (inst_at g z)) [KProp; KObj; KNode; KMgr; KUser true].
Lemma plain_among g g' : plain g -> among [KProp; KObj; KNode; KMgr; KUser true] g g' -> plain g'.
Proof. intros P A z Z. destruct (A z Z) as [(y & L & ->)|J]; [exact (P y L)|exact J]. Qed.
Lemma plain_free g x : plain g -> intact g -> x < length g -> ~ locked g x.
Proof.
  intros P I X (k & R & K). specialize (P k (reaches_here g x k I X R)). destruct K as [K|[K|K]]; rewrite K in P; cbn [In] in P;
  repeat (destruct P as [P|P]; [discriminate P|]); exact P.
Qed.
Lemma step_plain g c : proper g -> plain g -> tame c -> plain (fst (cstep g c)) /\ snd (cstep g c) <> CTypeError.
Proof.
  intros P PL T. pose proof P as (IT & _).
  assert (SAME : forall g', length g' = length g -> (forall z, i_kind (inst_at g' z) = i_kind (inst_at g z)) -> plain g').
  { intros g' L H. apply (plain_among g g' PL). apply among_same; assumption. }
  assert (PT : forall x s y, plain (point x s y g)). { intros x s y. apply SAME; [apply point_len|]. intros z. apply point_same. }
  assert (NEW : forall g' (a : canswer), plain g' -> a <> CTypeError -> plain (fst (g', a)) /\ snd (g', a) <> CTypeError) by (intros; split; assumption).
  assert (ST : forall code o t g1, new_obj code g = (g1, o) \/ new_super code g = (g1, o) -> i_kind (inst_at g t) = KObj -> plain (fst (copy_into o (props_of (inst_at g t)) g1))).
  { intros code o t g1 E KT.
    assert (F : exists base q, filled g g1 o code base [] q).
    { destruct E as [E|E]; [pose proof (new_obj_filled g code P) as F|pose proof (new_super_filled g code P) as F]; rewrite E in F; cbn [fst] in F;
      (assert (o = length g) as -> by (unfold new_super, new_obj, alloc in E; congruence)); eauto. }
    destruct F as (base & q & U & P1 & LC & CH & EC & _). assert (KO : i_kind (inst_at g1 o) = KObj) by (rewrite EC; reflexivity).
    assert (PG1 : plain g1).
    { apply (plain_among g g1 PL). destruct E as [E|E].
      - assert (g1 = g ++ [mkinst KObj [code] []]) as -> by (unfold new_obj, alloc in E; congruence). apply among_alloc. right. left. reflexivity.
      - assert (g1 = point o SHandler o (g ++ [mkinst KObj [code] []])) as -> by (unfold new_super, new_obj, alloc in E; congruence).
        eapply among_trans; [apply (among_alloc _ g (mkinst KObj [code] [])); right; left; reflexivity|]. apply among_same; [apply point_len|intros z; apply point_same]. }
    apply (plain_among g1 _ PG1). apply into_among; [exact P1|exact KO|]. intros p J. rewrite held_props in J. apply in_map_iff in J. destruct J as ([d p'] & EE & J). cbn [snd] in EE. subst p'. apply held_in in J.
    rewrite (proj1 (proj2 (grown_untouched g g1 U) p (IT _ _ _ J))). apply (prop_kind g t d p P J). }
  destruct c; cbn [cstep]; try contradiction T.
  - apply NEW; [|discriminate]. cbn. apply (plain_among g _ PL), among_alloc. left. reflexivity.
  - apply NEW; [|discriminate]. cbn. apply (plain_among g _ PL), among_alloc. right. left. reflexivity.
  - apply NEW; [|discriminate]. cbn. apply (plain_among g _ PL). eapply among_trans; [apply (among_alloc _ g (mkinst KObj [code] [])); right; left; reflexivity|]. apply among_same; [apply point_len|intros z; apply point_same].
  - apply NEW; [|discriminate]. pose proof (new_node_ok KNode g P (or_introl eq_refl)) as H. destruct (new_node KNode g) as [g' n]. cbn [fst]. destruct H as (_ & G & _ & _ & _ & _ & _ & KS).
    apply (plain_among g _ PL). apply among_grown; [exact G|]. intros z Z. right. specialize (KS z Z). cbn [In] in *. destruct KS as [<-|[<-|[<-|[]]]]; auto.
  - destruct ok; [|contradiction T]. apply NEW; [|discriminate]. cbn. apply (plain_among g _ PL), among_alloc. do 4 right. left. reflexivity.
  - destruct (is is_obj g o && is is_prop g p); apply NEW; try discriminate; [|exact PL]. apply SAME; [unfold add_prop; rewrite !point_len; reflexivity|].
    intros z. unfold add_prop. rewrite (proj1 (point_same _ _ _ _ z)). apply point_same.
  - destruct (is is_node g n && is is_obj g o); apply NEW; try discriminate; [|exact PL]. apply SAME; [unfold add_obj; rewrite !point_len; reflexivity|].
    intros z. unfold add_obj. rewrite (proj1 (point_same _ _ _ _ z)). apply point_same.
  - destruct (is is_obj g o && (is is_user g u || is is_obj g u)); apply NEW; try discriminate; [apply PT|exact PL].
  - destruct (is is_obj g o && is is_user g u); apply NEW; try discriminate; [apply PT|exact PL].
  - destruct (is is_local g n) eqn:G; apply NEW; try discriminate; [|exact PL]. apply is_true in G. destruct G as (A1 & A2).
    destruct (proj1 (proj2 (proj2 (proj2 (proj2 P)))) n) as (m & HM); [destruct (i_kind (inst_at g n)); try discriminate A2; auto|]. rewrite (stop_is n m g (the_manager g n m P HM)). apply SAME; [apply drop_len|intros z; apply drop_same].
  - destruct (is is_obj g t) eqn:G; [|apply NEW; [exact PL|discriminate]]. apply is_true in G. destruct G as (A1 & A2). apply is_obj_eq in A2.
    destruct (standard_alt g code t P A2 A1) as [(d & p & H & KL & _)|(g' & c & E & P' & _)].
    + exfalso. exact (plain_free g p PL IT (IT _ _ _ H) KL).
    + rewrite E. cbn [made]. apply NEW; [|discriminate]. unfold new_standard in E. destruct (new_super code g) as [g1 o] eqn:N. pose proof (ST code o t g1 (or_intror N) A2) as Q.
      destruct (copy_into o (props_of (inst_at g t)) g1) as [g2 [|]]; [|discriminate E]. cbn [fst] in Q. assert (g' = g2) as -> by congruence. exact Q.
  - destruct (is is_ctl g c && _) eqn:G; [|apply NEW; [exact PL|discriminate]]. apply andb_true_iff in G. destruct G as (G1 & _). apply is_true in G1. destruct G1 as (A1 & A2). specialize (PL c A1).
    destruct (i_kind (inst_at g c)); try discriminate A2. cbn [In] in PL. repeat (destruct PL as [PL|PL]; [discriminate PL|]). contradiction.
  - destruct (is is_prop g p) eqn:G; [|apply NEW; [exact PL|discriminate]]. apply is_true in G. destruct G as (A1 & A2).
    destruct (deep_cases g p P A1) as [(K & _)|(_ & g' & f & -> & U & C & P')]; [exfalso; exact (plain_free g p PL IT A1 K)|]. cbn [made]. apply NEW; [|discriminate].
    exact (plain_among g g' PL (among_copy _ g g' p f C IT A1 U)).
  - destruct (is is_obj g o) eqn:G; [|apply NEW; [exact PL|discriminate]]. apply is_true in G. destruct G as (A1 & A2). apply is_obj_eq in A2.
    destruct (copy_obj_alt g o P A2 A1) as [(d & p & H & KL & _)|(g' & c & E & P' & _)]; [exfalso; exact (plain_free g p PL IT (IT _ _ _ H) KL)|].
    rewrite E. cbn [made]. apply NEW; [|discriminate]. unfold copy_obj in E. destruct (new_obj (val_code (inst_at g o)) g) as [g1 o1] eqn:N. pose proof (ST _ o1 o g1 (or_introl N) A2) as Q.
    destruct (copy_into o1 (props_of (inst_at g o)) g1) as [g2 [|]]; [|discriminate E]. cbn [fst] in Q. assert (g' = g2) as -> by congruence. exact Q.
Qed.
Lemma L_C108_tame_partial : forall prog, Forall tame prog -> ~ In CTypeError (snd (crun [] prog)).
Proof.
  assert (G : forall prog g, proper g -> plain g -> Forall tame prog -> ~ In CTypeError (snd (crun g prog))).
  { induction prog as [|c r IH]; intros g P PL T; cbn [crun]; [intros []|]. apply Forall_cons_iff in T. destruct T as (T1 & T2).
    pose proof (step_proper g c P) as P1. destruct (step_plain g c P PL T1) as (PL1 & A1). destruct (cstep g c) as [g1 a]. cbn [fst snd] in *. specialize (IH g1 P1 PL1 T2). destruct (crun g1 r) as [g2 al]. cbn [snd] in *. intros [E|J]; [exact (A1 E)|exact (IH J)]. }
  intros prog. apply G; [exact nil_proper|]. intros z Z. cbn in Z. lia.
Qed.

(** *** A database object that a node was given *)
Lemma locked_later g0 g p : untouched g0 g -> intact g0 -> p < length g0 -> locked g0 p -> locked g p.
Proof.
  intros U I L (k & R & K). assert (A : reaches g p k /\ k < length g0).
  { clear K. induction R as [|k s l R (IH1 & IH2) H]; [split; [apply reaches_self|exact L]|]. split; [|exact (I _ _ _ H)].
    eapply reaches_next; [exact IH1|]. unfold has. rewrite (untouched_inst g0 g k U IH2). exact H. }
  exists k. split; [apply A|]. rewrite (untouched_inst g0 g k U (proj2 A)). exact K.
Qed.
Lemma found_refused : forall ts n g0 g, proper g0 -> proper g -> untouched g0 g -> length g0 <= n < length g -> i_kind (inst_at g n) = KRemote ->
  (forall c t, In (c, t) ts -> t < length g0 /\ i_kind (inst_at g0 t) = KObj) ->
  (exists c t e p, In (c, t) ts /\ has g0 t (SPr e) p /\ locked g0 p) -> snd (add_found n ts g) = false.
Proof.
  induction ts as [|[c t] ts IH]; intros n g0 g P0 P U LN KN HT (c1 & t1 & e & p & J & HP & KL); [destruct J|]. cbn [add_found].
  destruct (HT c t (or_introl eq_refl)) as (LT & KT). assert (LG : length g0 <= length g) by exact (proj1 (grown_untouched g0 g U)).
  pose proof (untouched_inst g0 g t U LT) as ET. assert (KT1 : i_kind (inst_at g t) = KObj) by (rewrite ET; exact KT).
  destruct (obj_alt g t P ltac:(lia)) as [(d & p' & H & K)|NL].
  { rewrite (L_C108_standard_refused g c t d p' P KT1 H K). reflexivity. }
  destruct (L_C108_standard g c t P KT1 NL) as (g1 & o & q & -> & U1 & P1 & (EO & LO & IO & _)).
  destruct (grown_untouched g g1 U1) as (L1 & KV1). destruct (KV1 n (proj2 LN)) as (KN1 & _).
  assert (KO : i_kind (inst_at g1 o) = KObj) by (rewrite IO; reflexivity).
  destruct (grown_add_obj g1 n o) as (L2 & KV2).
  apply (IH n g0).
  - exact P0.
  - apply proper_add_obj; [exact P1|lia|exact LO|exact KO|right; right; congruence].
  - unfold add_obj. apply untouched_point; [apply untouched_point; [|lia]|lia]. exact (untouched_trans g0 g g1 U U1).
  - lia.
  - rewrite (proj1 (KV2 n ltac:(lia))). congruence.
  - intros c' t' J'. exact (HT c' t' (or_intror J')).
  - destruct J as [J|J]; [|exists c1, t1, e, p; auto]. assert (t1 = t) by congruence. subst t1. exfalso. apply (NL e p).
    + unfold has. rewrite ET. exact HP.
    + exact (locked_later g0 g p U (proj1 P0) (proj1 P0 _ _ _ HP) KL).
Qed.
Lemma L_C108_hear_refused : forall g c ip ts, proper g -> i_kind (inst_at g c) = KCtl -> (forall d t, In (d, t) ts -> i_kind (inst_at g t) = KObj) ->
  (exists d t e p, In (d, t) ts /\ has g t (SPr e) p /\ locked g p) -> hear_node c ip ts g = (g, None).
Proof.
  intros g c ip ts P KC HT EX. unfold hear_node, alloc. set (g1 := g ++ [mkinst KRemote [] []]).
  assert (P1 : proper g1). { apply proper_alloc; [exact P|intros s y []|constructor|intros [H|H]; discriminate H|discriminate|discriminate]. }
  assert (L1 : length g1 = S (length g)) by (unfold g1; rewrite app_length; cbn; lia).
  pose proof (found_refused ts (length g) g g1 P P1) as R. destruct (add_found (length g) ts g1) as [g2 b]. cbn [snd] in R. rewrite R; [reflexivity| | | | |exact EX].
  - intros z Z. unfold g1. rewrite nth_error_app1 by exact Z. reflexivity.
  - lia.
  - unfold g1. rewrite alloc_inst, Nat.eqb_refl. reflexivity.
  - intros d t J. pose proof (HT d t J) as K. split; [exact (kind_obj g t K)|exact K].
Qed.
Lemma L_C108_template_refuted : forall g t e p n k, proper g -> has g t (SPr e) p -> has g p SOwner t -> has g t SNode n ->
  i_kind (inst_at g n) = KNode \/ i_kind (inst_at g n) = KCtl -> k <> 0 ->
  let g1 := start_node k n g in
  (forall code, new_standard code t g1 = (g1, None)) /\
  (forall c ip ts d, i_kind (inst_at g1 c) = KCtl -> (forall d t, In (d, t) ts -> i_kind (inst_at g1 t) = KObj) -> In (d, t) ts ->
     hear_node c ip ts g1 = (g1, None)).
Proof.
  intros g t e p n k P HP HO HN K NK g1. pose proof P as (IT & _).
  destruct (proj1 (proj2 (proj2 (proj2 (proj2 P)))) n K) as (m & HM). pose proof (proper_start g n m k P HM) as P1. fold g1 in P1.
  pose proof (L_C108_running_refuted g p t n k P HO HN K NK) as D. fold g1 in D.
  destruct (manager_kind g n m P HM) as (KM & LM & _). destruct (prop_kind g t e p P HP) as (KP & KT). pose proof (has_here _ _ _ _ HP) as LT.
  assert (E1 : g1 = add_servers k n m (drop_at m is_server g)) by exact (start_is g n m k P HM).
  destruct (stop_manager g n m P HM) as (P2 & H2). destruct (servers_added k n m _ P2 H2) as (_ & _ & (L & _ & SAME & _) & _). rewrite <- E1 in *. rewrite drop_len in L, SAME.
  assert (I1 : inst_at g1 t = inst_at g t).
  { rewrite (SAME t LT) by (intros ->; congruence). rewrite drop_inst. destruct (Nat.eqb_spec t m) as [->|]; [congruence|reflexivity]. }
  assert (HP1 : has g1 t (SPr e) p) by (unfold has; rewrite I1; exact HP).
  assert (KL : locked g1 p).
  { destruct (deep_cases g1 p P1 (proj1 P1 _ _ _ HP1)) as [(KL & _)|(_ & g' & f & E & _)]; [exact KL|]. rewrite D in E. discriminate E. }
  split.
  - intros code. apply (L_C108_standard_refused g1 code t e p P1); [rewrite I1; exact KT|exact HP1|exact KL].
  - intros c ip ts d KC HT J. apply L_C108_hear_refused; [exact P1|exact KC|exact HT|]. exists d, t, e, p. auto.
Qed.

(** *** Which copies fail, after any program *)
Lemma is_here f g x : x < length g -> f (i_kind (inst_at g x)) = true -> is f g x = true.
Proof. intros L K. unfold is. rewrite (proj2 (Nat.ltb_lt _ _) L). exact K. Qed.
Lemma kind_prop g p : i_kind (inst_at g p) = KProp -> p < length g.
Proof. intros K. destruct (Nat.lt_ge_cases p (length g)) as [L|L]; [exact L|]. rewrite (inst_far g p L) in K. discriminate K. Qed.
Lemma kind_ctl g c : i_kind (inst_at g c) = KCtl -> c < length g.
Proof. intros K. destruct (Nat.lt_ge_cases c (length g)) as [L|L]; [exact L|]. rewrite (inst_far g c L) in K. discriminate K. Qed.
Lemma found_fine : forall ts n g0 g, proper g0 -> proper g -> untouched g0 g -> length g0 <= n < length g -> i_kind (inst_at g n) = KRemote ->
  (forall c t, In (c, t) ts -> t < length g0 /\ i_kind (inst_at g0 t) = KObj) ->
  (forall c t e p, In (c, t) ts -> has g0 t (SPr e) p -> ~ locked g0 p) -> snd (add_found n ts g) = true.
Proof.
  induction ts as [|[c t] ts IH]; intros n g0 g P0 P U LN KN HT FR; cbn [add_found]; [reflexivity|].
  destruct (HT c t (or_introl eq_refl)) as (LT & KT). assert (LG : length g0 <= length g) by exact (proj1 (grown_untouched g0 g U)).
  pose proof (untouched_inst g0 g t U LT) as ET. assert (KT1 : i_kind (inst_at g t) = KObj) by (rewrite ET; exact KT).
  assert (NL : forall d p, has g t (SPr d) p -> ~ locked g p).
  { intros d p H (k & R & K). unfold has in H. rewrite ET in H. apply (FR c t d p (or_introl eq_refl) H).
    assert (A : reaches g0 p k /\ k < length g0).
    { clear K. pose proof (proj1 P0 _ _ _ H) as LP. induction R as [|k s l R (IH1 & IH2) HL]; [split; [apply reaches_self|exact LP]|].
      unfold has in HL. rewrite (untouched_inst g0 g k U IH2) in HL. split; [exact (reaches_next _ _ _ _ _ IH1 HL)|exact (proj1 P0 _ _ _ HL)]. }
    exists k. split; [apply A|]. rewrite <- (untouched_inst g0 g k U (proj2 A)). exact K. }
  destruct (L_C108_standard g c t P KT1 NL) as (g1 & o & q & -> & U1 & P1 & (EO & LO & IO & _)).
  destruct (grown_untouched g g1 U1) as (L1 & KV1). destruct (KV1 n (proj2 LN)) as (KN1 & _).
  assert (KO : i_kind (inst_at g1 o) = KObj) by (rewrite IO; reflexivity).
  destruct (grown_add_obj g1 n o) as (L2 & KV2).
  apply (IH n g0).
  - exact P0.
  - apply proper_add_obj; [exact P1|lia|exact LO|exact KO|right; right; congruence].
  - unfold add_obj. apply untouched_point; [apply untouched_point; [|lia]|lia]. exact (untouched_trans g0 g g1 U U1).
  - lia.
  - rewrite (proj1 (KV2 n ltac:(lia))). congruence.
  - intros c' t' J'. exact (HT c' t' (or_intror J')).
  - intros c' t' e p J'. exact (FR c' t' e p (or_intror J')).
Qed.
Lemma L_C108_decided : forall prog, let g := fst (crun [] prog) in
  (forall p, i_kind (inst_at g p) = KProp ->
     (snd (cstep g (CCopyProp p)) = CTypeError <-> locked g p) /\ (~ locked g p -> snd (cstep g (CCopyProp p)) = CNew (length g))) /\
  (forall o, i_kind (inst_at g o) = KObj ->
     (snd (cstep g (CCopyObj o)) = CTypeError <-> exists d p, has g o (SPr d) p /\ locked g p)) /\
  (forall code t, i_kind (inst_at g t) = KObj ->
     (snd (cstep g (CStandard code t)) = CTypeError <-> exists d p, has g t (SPr d) p /\ locked g p)) /\
  (forall c ip ts, i_kind (inst_at g c) = KCtl -> (forall d t, In (d, t) ts -> i_kind (inst_at g t) = KObj) ->
     (snd (cstep g (CHear c ip ts)) = CTypeError <-> exists d t e p, In (d, t) ts /\ has g t (SPr e) p /\ locked g p)).
Proof.
  intros prog g. pose proof (L_C108_proper prog) as P. fold g in P. split; [|split; [|split]].
  - intros p K. pose proof (kind_prop g p K) as L. cbn [cstep]. rewrite (is_here is_prop g p L) by (rewrite K; reflexivity).
    destruct (deep_cases g p P L) as [(KL & ->)|(NL & g' & f & E & _ & C & _)]; [|assert (X : snd (deep_copy g p) = Some (length g)); [|rewrite E in *]]; cbn [made snd] in *.
    + split; [split; [intros _; exact KL|reflexivity]|intros N; destruct (N KL)].
    + unfold deep_copy in *. cbn [dcopy recall] in *. destruct (copyable (i_kind (inst_at g p))) eqn:CP; [|discriminate E].
      cbn [alloc] in *. destruct (copy_refs _ _ _) as [[gg mm] [rr|]]; [reflexivity|discriminate E].
    + split; [split; [discriminate|intros Y; destruct (NL Y)]|]. intros _. congruence.
  - intros o K. pose proof (kind_obj g o K) as L. cbn [cstep]. rewrite (is_here is_obj g o L) by (rewrite K; reflexivity).
    destruct (copy_obj_alt g o P K L) as [(d & p & H & KL & ->)|(g' & c & E & _)].
    + split; [intros _; eauto|reflexivity].
    + rewrite E. split; [discriminate|]. intros (d & p & H & KL). rewrite (L_C108_object_refused g o d p P K H KL) in E. discriminate E.
  - intros code t K. pose proof (kind_obj g t K) as L. cbn [cstep]. rewrite (is_here is_obj g t L) by (rewrite K; reflexivity).
    destruct (standard_alt g code t P K L) as [(d & p & H & KL & ->)|(g' & c & E & _)].
    + split; [intros _; eauto|reflexivity].
    + rewrite E. split; [discriminate|]. intros (d & p & H & KL). rewrite (L_C108_standard_refused g code t d p P K H KL) in E. discriminate E.
  - intros c ip ts K HT. pose proof (kind_ctl g c K) as L. cbn [cstep]. rewrite (is_here is_ctl g c L) by (rewrite K; reflexivity).
    replace (forallb (fun p => is is_obj g (snd p)) ts) with true.
    2:{ symmetry. apply forallb_forall. intros [d t] J. cbn [snd]. specialize (HT d t J). apply is_here; [exact (kind_obj g t HT)|rewrite HT; reflexivity]. }
    cbn [andb]. split.
    + intros E. assert (D : (exists d t e p, In (d, t) ts /\ has g t (SPr e) p /\ locked g p) \/ (forall d t e p, In (d, t) ts -> has g t (SPr e) p -> ~ locked g p)).
      { clear E. induction ts as [|[d t] ts IH]; [right; intros d t e p []|]. destruct IH as [(d' & t' & e & p & J & H)|N].
        - intros d' t' J. apply (HT d' t'). right. exact J.
        - left. exists d', t', e, p. split; [right; exact J|exact H].
        - pose proof (HT d t (or_introl eq_refl)) as KT. destruct (obj_alt g t P (kind_obj g t KT)) as [(e & p & H & KL)|NL].
          + left. exists d, t, e, p. split; [left; reflexivity|auto].
          + right. intros d' t' e p [J|J]; [|exact (N d' t' e p J)]. assert (t' = t) by congruence. subst t'. exact (NL e p). }
      destruct D as [D|D]; [exact D|]. exfalso. unfold hear_node, alloc in E. set (g1 := g ++ [mkinst KRemote [] []]) in *.
      assert (P1 : proper g1). { apply proper_alloc; [exact P|intros s y []|constructor|intros [H|H]; discriminate H|discriminate|discriminate]. }
      assert (L1 : length g1 = S (length g)) by (unfold g1; rewrite app_length; cbn; lia).
      pose proof (found_fine ts (length g) g g1 P P1) as R. destruct (add_found (length g) ts g1) as [g2 b]. cbn [snd] in R. rewrite R in E; [discriminate E| | | | |exact D].
      * intros z Z. unfold g1. rewrite nth_error_app1 by exact Z. reflexivity.
      * lia.
      * unfold g1. rewrite alloc_inst, Nat.eqb_refl. reflexivity.
      * intros d t J. pose proof (HT d t J) as KT. split; [exact (kind_obj g t KT)|exact KT].
    + intros X. rewrite (L_C108_hear_refused g c ip ts P K HT X). reflexivity.
Qed.
(** What the other commands attach. *)
Lemma L_C108_attached : forall prog, let g := fst (crun [] prog) in
  (forall o p, i_kind (inst_at g o) = KObj -> i_kind (inst_at g p) = KProp ->
     let g' := fst (cstep g (CAddProp o p)) in has g' o (SPr (hd 0%Z (i_val (inst_at g p)))) p /\ has g' p SOwner o) /\
  (forall n o, i_kind (inst_at g n) = KNode \/ i_kind (inst_at g n) = KCtl \/ i_kind (inst_at g n) = KRemote -> i_kind (inst_at g o) = KObj ->
     let g' := fst (cstep g (CAddObj n o)) in has g' n (SObj (hd 0%Z (i_val (inst_at g o)))) o /\ has g' o SNode n) /\
  (forall o u, i_kind (inst_at g o) = KObj -> u < length g -> (exists b, i_kind (inst_at g u) = KUser b) \/ i_kind (inst_at g u) = KObj ->
     has (fst (cstep g (CHandler o u))) o SHandler u) /\
  (forall o k u, i_kind (inst_at g o) = KObj -> u < length g -> (exists b, i_kind (inst_at g u) = KUser b) ->
     has (fst (cstep g (CObserve o k u))) o (SObserver k) u) /\
  (forall n k, i_kind (inst_at g n) = KNode \/ i_kind (inst_at g n) = KCtl -> k <> 0 -> locked (fst (cstep g (CStart k n))) n).
Proof.
  intros prog g. pose proof (L_C108_proper prog) as P. fold g in P. split; [|split; [|split; [|split]]].
  - intros o p KO KP. pose proof (kind_obj g o KO) as LO. pose proof (kind_prop g p KP) as LP. cbn [cstep]. rewrite (is_here is_obj g o LO), (is_here is_prop g p LP) by (rewrite ?KO, ?KP; reflexivity).
    cbn [andb fst]. unfold add_prop. split; [|apply has_point; rewrite point_len; exact LP]. apply has_kept; [intros X; assert (o = p) by congruence; subst; congruence|]. apply has_point. exact LO.
  - intros n o KN KO. pose proof (kind_obj g o KO) as LO. assert (LN : n < length g).
    { destruct (Nat.lt_ge_cases n (length g)) as [L|L]; [exact L|]. rewrite (inst_far g n L) in KN. destruct KN as [KN|[KN|KN]]; discriminate KN. }
    cbn [cstep]. rewrite (is_here is_node g n LN) by (destruct KN as [-> |[-> | ->]]; reflexivity). rewrite (is_here is_obj g o LO) by (rewrite KO; reflexivity).
    cbn [andb fst]. unfold add_obj. split; [|apply has_point; rewrite point_len; exact LO]. apply has_kept; [intros X; assert (n = o) by congruence; subst; destruct KN as [KN|[KN|KN]]; congruence|]. apply has_point. exact LN.
  - intros o u KO LU KU. pose proof (kind_obj g o KO) as LO. cbn [cstep]. rewrite (is_here is_obj g o LO) by (rewrite KO; reflexivity).
    replace (is is_user g u || is is_obj g u) with true; [apply has_point; exact LO|]. symmetry. apply orb_true_iff. destruct KU as [(b & KU)|KU]; [left|right]; apply is_here; try exact LU; rewrite KU; reflexivity.
  - intros o k u KO LU (b & KU). pose proof (kind_obj g o KO) as LO. cbn [cstep]. rewrite (is_here is_obj g o LO), (is_here is_user g u LU) by (rewrite ?KO, ?KU; reflexivity). apply has_point. exact LO.
  - intros n k KN K0. assert (LN : n < length g). { destruct (Nat.lt_ge_cases n (length g)) as [L|L]; [exact L|]. rewrite (inst_far g n L) in KN. destruct KN as [KN|KN]; discriminate KN. }
    cbn [cstep]. rewrite (is_here is_local g n LN) by (destruct KN as [-> | ->]; reflexivity). cbn [fst].
    destruct (proj1 (proj2 (proj2 (proj2 (proj2 P)))) n KN) as (m & HM). rewrite (start_is g n m k P HM).
    destruct (stop_manager g n m P HM) as (P1 & H1). destruct (servers_added k n m _ P1 H1) as (P2 & H2 & _ & HS). destruct (HS K0) as (j & s & HJ).
    exists s. split; [exact (reaches_next _ _ _ _ _ (reaches_next _ _ _ _ _ (reaches_self _ _) H2) HJ)|left; exact (server_kind _ m j s P2 HJ)].
Qed.
