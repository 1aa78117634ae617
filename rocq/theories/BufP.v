(** Lemmas for C101. *)
From Verif Require Import PyBase BytesM EsvM MsgM TidM BufM SpecBuf TidP.
From Verif Require Import WireP CodecP.
Local Open Scope nat_scope.

Lemma bytes_eqb_dec a : forall b, bytes_eqb a b = if list_eq_dec Z.eq_dec a b then true else false.
Proof.
  induction a as [|x a IH]; intros [|y b]; cbn [bytes_eqb]; destruct (list_eq_dec Z.eq_dec _ _) as [E|E]; try reflexivity; try discriminate E; try (exfalso; apply E; reflexivity).
  - injection E as -> ->. rewrite Z.eqb_refl, IH. cbn. destruct (list_eq_dec Z.eq_dec b b); congruence.
  - destruct (Z.eqb_spec x y) as [->|]; cbn; [|reflexivity]. rewrite IH. destruct (list_eq_dec Z.eq_dec a b) as [->|]; [contradiction|reflexivity].
Qed.
Lemma nth_error_upd {A} (l : list A) i x j : nth_error (upd l i x) j = if Nat.eqb j i then match nth_error l i with Some _ => Some x | None => None end else nth_error l j.
Proof.
  unfold upd. rewrite nth_error_map.
  assert (C : nth_error (combine (seq 0 (length l)) l) j = option_map (fun y => (j, y)) (nth_error l j)).
  { assert (G : forall (m : list A) k, nth_error (combine (seq k (length m)) m) j = option_map (fun y => (k + j, y)) (nth_error m j)).
    { clear l. revert j. intros j m. revert j. induction m as [|y m IH]; intros [|j] k; cbn; try reflexivity; [now rewrite Nat.add_0_r|]. rewrite IH. now replace (S k + j) with (k + S j) by lia. }
    apply G. }
  rewrite C. destruct (nth_error l j) as [y|] eqn:E; cbn; destruct (Nat.eqb_spec j i) as [->|]; try rewrite E; reflexivity.
Qed.
Lemma nth_error_same {A} (l : list A) : forall m, (forall j, nth_error l j = nth_error m j) -> l = m.
Proof.
  induction l as [|x l IH]; intros [|y m] H; [reflexivity|specialize (H 0); discriminate H|specialize (H 0); discriminate H|].
  pose proof (H 0) as H0. cbn in H0. assert (x = y) by congruence. subst. f_equal. apply IH. intros j. exact (H (S j)).
Qed.
Lemma put_upd {A} (l : list A) i x : put l i x = upd l i x.
Proof. apply nth_error_same. intros j. now rewrite nth_put, nth_error_upd. Qed.
Definition val (h : list (bool * list Z)) (r : nat) : bool * list Z := nth r h (false, []).
Lemma as_values_eq s : as_values s = mkvst (map (val (b_heap s)) (b_vars s)) (map (val (b_heap s)) (b_cells s)) (b_msgs s).
Proof. reflexivity. Qed.
Lemma val_grow h x r : r < length h -> val (h ++ [x]) r = val h r.
Proof. intros L. unfold val. now apply app_nth1. Qed.
Lemma val_new h x : val (h ++ [x]) (length h) = x.
Proof. unfold val. rewrite app_nth2, Nat.sub_diag; [reflexivity|lia]. Qed.
Lemma map_grow h x l : Forall (fun r => r < length h) l -> map (val (h ++ [x])) l = map (val h) l.
Proof. intros F. apply map_ext_in. intros r I. apply val_grow. rewrite Forall_forall in F. auto. Qed.
Lemma val_put h r x k : r < length h -> val (put h r x) k = if Nat.eqb k r then x else val h k.
Proof.
  intros L. unfold val. destruct (nth_error (put h r x) k) as [y|] eqn:E.
  - rewrite (nth_error_nth _ _ _ E). rewrite nth_put in E. destruct (Nat.eqb k r).
    + destruct (nth_error h r); congruence.
    + now rewrite (nth_error_nth _ _ _ E).
  - assert (length h <= k). { apply nth_error_None in E. now rewrite length_put in E. }
    rewrite nth_overflow by (rewrite length_put; lia). destruct (Nat.eqb_spec k r); [lia|]. now rewrite nth_overflow by lia.
Qed.
Lemma map_put_out h r x l : r < length h -> ~ In r l -> map (val (put h r x)) l = map (val h) l.
Proof. intros L N. apply map_ext_in. intros k I. rewrite val_put by exact L. destruct (Nat.eqb_spec k r) as [->|]; [contradiction|reflexivity]. Qed.
Lemma map_upd {A B} (f : A -> B) l i x : map f (upd l i x) = upd (map f l) i (f x).
Proof.
  apply nth_error_same. intros j. rewrite nth_error_map, !nth_error_upd, !nth_error_map. destruct (Nat.eqb j i); destruct (nth_error l i); reflexivity.
Qed.
Lemma Forall_snoc {A} (P : A -> Prop) l x : Forall P l -> P x -> Forall P (l ++ [x]).
Proof. intros F X. apply Forall_app. auto. Qed.
Lemma Forall_upd {A} (P : A -> Prop) l i x : Forall P l -> P x -> Forall P (upd l i x).
Proof.
  intros F X. apply Forall_forall. intros y I. apply In_nth_error in I. destruct I as (j & E). rewrite nth_error_upd in E. rewrite Forall_forall in F.
  destruct (Nat.eqb j i); [|exact (F _ (nth_error_In _ _ E))]. destruct (nth_error l i); [|discriminate]. congruence.
Qed.
Lemma length_upd {A} (l : list A) i x : length (upd l i x) = length l.
Proof. rewrite <- put_upd. apply length_put. Qed.
Lemma Forall_grow (h : list (bool * list Z)) x l : Forall (fun r => r < length h) l -> Forall (fun r => r < length (h ++ [x])) l.
Proof. apply Forall_impl. intros r. rewrite app_length. lia. Qed.
Lemma msgs_grow {A} (l : list A) x (ms : list (list nat)) : Forall (Forall (fun c => c < length l)) ms -> Forall (Forall (fun c => c < length (l ++ [x]))) ms.
Proof. apply Forall_impl. intros m. apply Forall_impl. intros c. rewrite app_length. lia. Qed.
Lemma ref_ok l n v r : Forall (fun k => k < n) l -> nth_error l v = Some r -> r < n.
Proof. intros F E. rewrite Forall_forall in F. exact (F _ (nth_error_In _ _ E)). Qed.

Ltac norm := rewrite ?put_upd; cbn [b_heap b_vars b_cells b_msgs add_var add_cell set_cell set_heap alloc fst snd].
Lemma buf_ok_step s o : buf_ok s -> buf_ok (fst (bstep s o)).
Proof.
  intros (V & C & M). pose proof (conj V (conj C M)) as OK.
  destruct o; cbn [bstep alloc];
   repeat match goal with |- context[match ?x with _ => _ end] => let E := fresh "E" in destruct x eqn:E end; cbn [fst]; try exact OK;
   unfold add_var, add_cell, set_cell, set_heap; unfold buf_ok; cbn [b_heap b_vars b_cells b_msgs]; rewrite ?put_upd, ?length_upd;
   repeat match goal with |- _ /\ _ => split end; auto using Forall_grow, msgs_grow.
  all: try (apply Forall_snoc; [auto using Forall_grow|]; first [rewrite app_length; cbn; lia | exact (ref_ok _ _ _ _ C E) | exact (ref_ok _ _ _ _ V E) | constructor]).
  all: try (apply Forall_upd; [assumption|]; first [exact (ref_ok _ _ _ _ V E) | exact (ref_ok _ _ _ _ V E0)]).
  apply Forall_upd; [assumption|]. apply Forall_app. split.
  - rewrite Forall_forall in M. exact (M _ (nth_error_In _ _ E)).
  - constructor; [|constructor]. apply nth_error_Some. congruence.
Qed.
Lemma val_step s o : buf_ok s ->
  match o with BEdit v _ => alone s v \/ exists k d, nth_error (b_vars s) v = Some k /\ nth_error (b_heap s) k = Some (false, d) | _ => True end ->
  vstep (as_values s) o = (as_values (fst (bstep s o)), snd (bstep s o)).
Proof.
  intros (V & C & M) A. rewrite !as_values_eq.
  destruct o; cbn [bstep vstep alloc v_vars v_cells v_msgs]; rewrite ?nth_error_map.
  - cbn [fst snd add_var b_heap b_vars b_cells b_msgs]. rewrite map_app, (map_grow _ _ _ V), (map_grow _ _ _ C). cbn [map]. rewrite val_new. reflexivity.
  - destruct (nth_error (b_vars s) v) as [r|] eqn:E; cbn [option_map]; [|reflexivity].
    pose proof (ref_ok _ _ _ _ V E) as L. destruct (nth_error (b_heap s) r) as [[mu d]|] eqn:H; [|exfalso; apply nth_error_None in H; lia].
    unfold val at 1. rewrite (nth_error_nth _ _ _ H). destruct mu; [|reflexivity]. cbn [fst snd set_heap b_heap b_vars b_cells b_msgs].
    destruct A as [A|(k & d' & E' & H')]; [|congruence]. destruct (A _ E) as [N1 N2]. rewrite (map_put_out _ _ _ _ L N1). f_equal. f_equal.
    apply nth_error_same. intros j. rewrite nth_error_upd, !nth_error_map, E. cbn [option_map]. destruct (Nat.eqb_spec j v) as [->|J].
    + rewrite E. cbn [option_map]. now rewrite val_put, Nat.eqb_refl.
    + destruct (nth_error (b_vars s) j) as [k|] eqn:K; cbn [option_map]; [|reflexivity]. rewrite val_put by exact L. destruct (Nat.eqb_spec k r) as [->|]; [|reflexivity].
      exfalso. exact (J (N2 _ K)).
  - destruct (nth_error (b_vars s) v) as [r|]; reflexivity.
  - destruct (nth_error (b_vars s) v) as [r|]; cbn [option_map]; [|reflexivity]. cbn [fst snd set_cell b_heap b_vars b_cells b_msgs]. now rewrite put_upd, map_upd.
  - destruct (nth_error (b_cells s) c) as [r|]; cbn [option_map]; [|reflexivity]. cbn [fst snd add_var b_heap b_vars b_cells b_msgs]. now rewrite map_app.
  - cbn [fst snd add_var b_heap b_vars b_cells b_msgs]. rewrite map_app, (map_grow _ _ _ V), (map_grow _ _ _ C). cbn [map]. rewrite val_new. reflexivity.
  - destruct (nth_error (b_cells s) c) as [r|]; cbn [option_map]; [|reflexivity]. destruct (nth_error (b_vars s) v) as [r'|]; cbn [option_map]; [|reflexivity].
    rewrite bytes_eqb_dec. change (content s r) with (snd (val (b_heap s) r)). change (content s r') with (snd (val (b_heap s) r')).
    destruct (list_eq_dec Z.eq_dec _ _); [reflexivity|]. cbn [fst snd set_cell b_heap b_vars b_cells b_msgs]. now rewrite put_upd, map_upd.
  - destruct (nth_error (b_cells s) c) as [r|]; reflexivity.
  - destruct (nth_error (b_cells s) c) as [r|]; cbn [option_map]; [|reflexivity]. cbn [fst snd add_cell b_heap b_vars b_cells b_msgs].
    rewrite map_app, (map_grow _ _ _ V), (map_grow _ _ _ C). cbn [map]. rewrite val_new. unfold content, val. now destruct (nth r (b_heap s) (false, [])).
  - destruct (nth_error (b_vars s) v) as [r|]; cbn [option_map]; [|reflexivity]. cbn [fst snd add_cell b_heap b_vars b_cells b_msgs]. now rewrite map_app.
  - reflexivity.
  - destruct (nth_error (b_msgs s) m) as [l|]; [|reflexivity]. destruct (nth_error (b_cells s) c) as [r|]; cbn [option_map]; [|reflexivity].
    cbn [fst snd b_heap b_vars b_cells b_msgs]. now rewrite put_upd.
  - destruct (nth_error (b_msgs s) m) as [l|] eqn:E; [|reflexivity]. cbn [fst snd]. do 3 f_equal. apply map_ext_in. intros c I.
    assert (L : c < length (b_cells s)). { rewrite Forall_forall in M. pose proof (M _ (nth_error_In _ _ E)) as F. rewrite Forall_forall in F. auto. }
    rewrite (nth_indep _ (false, []) (val (b_heap s) 0)) by (rewrite map_length; exact L). rewrite map_nth. reflexivity.
Qed.
Lemma L_C101_values_partial : forall l s s' e, buf_ok s -> edits_alone s l -> brun s l = (s', e) -> vrun (as_values s) l = (as_values s', e).
Proof.
  induction l as [|o l IH]; intros s s' e OK A H; cbn [brun vrun edits_alone] in *.
  - congruence.
  - destruct A as [A1 A2]. rewrite (val_step s o OK A1). destruct (bstep s o) as [s1 e1] eqn:E. cbn [fst snd] in *.
    destruct (brun s1 l) as [s2 e2] eqn:R. assert (s' = s2) by congruence. assert (e = e1 ++ e2) by congruence. subst.
    pose proof (buf_ok_step s o OK) as OK1. rewrite E in OK1. cbn [fst] in OK1, A2. now rewrite (IH _ _ _ OK1 A2 R).
Qed.
Lemma no_edits_alone l : forall s, no_edits l -> edits_alone s l.
Proof.
  induction l as [|o l IH]; intros s N; cbn [edits_alone]; [exact I|]. split.
  - destruct o; try exact I. exfalso. apply (N v f). now left.
  - apply IH. intros v f I. apply (N v f). now right.
Qed.
Lemma L_C101_library : forall l s s' e, buf_ok s -> no_edits l -> brun s l = (s', e) -> vrun (as_values s) l = (as_values s', e).
Proof. intros l s s' e OK N. exact (L_C101_values_partial l s s' e OK (no_edits_alone l s N)). Qed.
(** An edit is seen by exactly the properties and variables that refer to the array. *)
Lemma L_C101_edit : forall s v f r d, nth_error (b_vars s) v = Some r -> nth_error (b_heap s) r = Some (true, d) ->
  forall c k, nth_error (b_cells s) c = Some k ->
  snd (brun s [BEdit v f; BRead c]) = [OBytes (if Nat.eqb k r then f d else snd (nth k (b_heap s) (false, [])))].
Proof.
  intros s v f r d E H c k K. cbn [brun bstep]. rewrite E, H. cbn [set_heap b_heap b_vars b_cells b_msgs]. rewrite K. cbn [snd app]. unfold content, set_heap. cbn [b_heap].
  pose proof (val_put (b_heap s) r (true, f d) k ltac:(apply nth_error_Some; congruence)) as VP. unfold val in VP. rewrite VP.
  destruct (Nat.eqb k r); reflexivity.
Qed.

(** ** Data changes only by storing *)
Lemma vstep_kept s o c x : nth_error (v_cells s) c = Some x -> (forall v, o <> BSet c v) -> (forall v, o <> BRecord c v) ->
  nth_error (v_cells (fst (vstep s o))) c = Some x.
Proof.
  intros H N1 N2. assert (G : forall y, nth_error (v_cells s ++ [y]) c = Some x). { intros y. rewrite nth_error_app1; [exact H|]. apply nth_error_Some. congruence. }
  assert (U : forall c' y, c' <> c -> nth_error (upd (v_cells s) c' y) c = Some x). { intros c' y N. rewrite nth_error_upd. destruct (Nat.eqb_spec c c'); [congruence|exact H]. }
  destruct o; cbn [vstep];
   repeat match goal with |- context[match ?z with _ => _ end] => destruct z end; cbn [fst v_cells]; try exact H; try apply G; apply U; intros ->; [exact (N1 _ eq_refl)|exact (N2 _ eq_refl)].
Qed.
Lemma vrun_kept l : forall s c x, nth_error (v_cells s) c = Some x -> (forall v, ~ In (BSet c v) l) -> (forall v, ~ In (BRecord c v) l) ->
  nth_error (v_cells (fst (vrun s l))) c = Some x.
Proof.
  induction l as [|o l IH]; intros s c x H N1 N2; [exact H|]. cbn [vrun].
  pose proof (vstep_kept s o c x H ltac:(intros v ->; exact (N1 v (or_introl eq_refl))) ltac:(intros v ->; exact (N2 v (or_introl eq_refl)))) as K.
  destruct (vstep s o) as [s1 e1]. cbn [fst] in K. pose proof (IH s1 c x K ltac:(intros v I; exact (N1 v (or_intror I))) ltac:(intros v I; exact (N2 v (or_intror I)))) as R.
  destruct (vrun s1 l) as [s2 e2]. exact R.
Qed.
Lemma brun_app a : forall s b, brun s (a ++ b) = let '(s1, e1) := brun s a in let '(s2, e2) := brun s1 b in (s2, e1 ++ e2).
Proof.
  induction a as [|o a IH]; intros s b; cbn [app brun]; [now destruct (brun s b)|]. destruct (bstep s o) as [s1 e1]. rewrite IH. destruct (brun s1 a) as [s2 e2]. destruct (brun s2 b). now rewrite app_assoc.
Qed.
Lemma L_C101_kept_partial : forall l s c, buf_ok s -> edits_alone s l -> (forall v, ~ In (BSet c v) l) -> (forall v, ~ In (BRecord c v) l) ->
  forall d, snd (brun s [BRead c]) = [OBytes d] -> exists e, snd (brun s (l ++ [BRead c])) = e ++ [OBytes d].
Proof.
  intros l s c OK A N1 N2 d H. rewrite brun_app. destruct (brun s l) as [s1 e1] eqn:R. pose proof (L_C101_values_partial _ _ _ _ OK A R) as V.
  cbn [brun bstep] in H |- *. destruct (nth_error (b_cells s) c) as [r|] eqn:E; [|discriminate H]. cbn [snd app] in H.
  assert (X : nth_error (v_cells (as_values s)) c = Some (val (b_heap s) r)) by (rewrite as_values_eq; cbn [v_cells]; rewrite nth_error_map, E; reflexivity).
  pose proof (vrun_kept l _ _ _ X N1 N2) as K. rewrite V in K. cbn [fst] in K. rewrite as_values_eq in K. cbn [v_cells] in K. rewrite nth_error_map in K.
  destruct (nth_error (b_cells s1) c) as [r1|]; [|discriminate K]. cbn [option_map] in K. cbn [snd app]. exists e1. do 2 f_equal.
  assert (content s1 r1 = content s r). { change (snd (val (b_heap s1) r1) = snd (val (b_heap s) r)). congruence. } congruence.
Qed.

(** ** Findings *)
Lemma nth_error_snoc {A} (l : list A) x : nth_error (l ++ [x]) (length l) = Some x.
Proof. rewrite nth_error_app2, Nat.sub_diag; [reflexivity|lia]. Qed.
Lemma put_snoc {A} (l : list A) x y : put (l ++ [x]) (length l) y = l ++ [y].
Proof. induction l as [|z l IH]; cbn; [reflexivity|]. now rewrite IH. Qed.
Lemma nth_snoc {A} (l : list A) x d : nth (length l) (l ++ [x]) d = x.
Proof. rewrite app_nth2, Nat.sub_diag; [reflexivity|lia]. Qed.
Lemma put_at {A} (l : list A) c x : c < length l -> nth_error (put l c x) c = Some x.
Proof. intros L. rewrite nth_put, Nat.eqb_refl. destruct (nth_error l c) eqn:E; [reflexivity|]. apply nth_error_None in E. lia. Qed.
Ltac run := cbn [brun bstep alloc add_var add_cell set_cell set_heap b_heap b_vars b_cells b_msgs snd fst app]; rewrite ?nth_error_snoc, ?put_snoc, ?nth_snoc;
  cbn [brun bstep alloc add_var add_cell set_cell set_heap b_heap b_vars b_cells b_msgs snd fst app].
Lemma L_C101_set_refuted : forall s c d d', c < length (b_cells s) ->
  (* the application stores a byte array, and then changes it *)
  snd (brun s [BNew true d; BSet c (length (b_vars s)); BEdit (length (b_vars s)) (fun _ => d'); BRead c]) = [OBytes d'].
Proof. intros s c d d' L. run. rewrite ?nth_error_snoc. run. rewrite put_at by exact L. unfold content. run. reflexivity. Qed.
Lemma L_C101_get_refuted : forall s c d d', c < length (b_cells s) ->
  (* a controller writes the property; the application gets the data and changes what it got *)
  snd (brun s [BArrive d; BSet c (length (b_vars s)); BGet c; BEdit (S (length (b_vars s))) (fun _ => d'); BRead c]) = [OBytes d'].
Proof.
  intros s c d d' L. run. rewrite put_at by exact L. run.
  replace (S (length (b_vars s))) with (length (b_vars s ++ [length (b_heap s)])) by (rewrite app_length; cbn; lia). run. rewrite put_at by exact L. unfold content. run. reflexivity.
Qed.
Lemma L_C101_response_refuted : forall s c d0 d d', buf_ok s -> snd (brun s [BRead c]) = [OBytes d0] -> d <> d0 ->
  (* the controller records a response; the caller of post_message changes the data of the message it got; the device
     announces the data that is there now: the listeners are not told *)
  snd (brun s [BArrive d; BRecord c (length (b_vars s)); BEdit (length (b_vars s)) (fun _ => d'); BRead c;
               BArrive d'; BRecord c (S (length (b_vars s)))]) = [OTold true; OBytes d'; OTold false].
Proof.
  intros s c d0 d d' (V & C & M) H D. cbn [brun bstep] in H. destruct (nth_error (b_cells s) c) as [r|] eqn:E; [|discriminate H]. pose proof (ref_ok _ _ _ _ C E) as R.
  assert (L : c < length (b_cells s)) by (apply nth_error_Some; congruence). cbn [snd app] in H.
  run. rewrite E. unfold content at 1 2. run. rewrite app_nth1 by exact R.
  assert (D0 : snd (nth r (b_heap s) (false, [])) = d0) by (change (content s r = d0); congruence). rewrite D0, bytes_eqb_dec.
  destruct (list_eq_dec Z.eq_dec d0 d); [congruence|]. run. rewrite put_at by exact L. unfold content at 1. run. rewrite put_at by exact L.
  replace (S (length (b_vars s))) with (length (b_vars s ++ [length (b_heap s)])) by (rewrite app_length; cbn; lia). run.
  unfold content. run.
  rewrite (app_nth1 _ [(true, d')]) by (rewrite app_length; cbn; lia). rewrite !nth_snoc. cbn [snd].
  rewrite bytes_eqb_dec. destruct (list_eq_dec Z.eq_dec d' d'); [|congruence]. run. reflexivity.
Qed.
Lemma L_C101_added_refuted : forall s d d',
  (* a property is added to a message and stored into before the message is sent *)
  snd (brun s [BNew false d; BProp (length (b_vars s)); BMsg; BAdd (length (b_msgs s)) (length (b_cells s));
               BNew false d'; BSet (length (b_cells s)) (S (length (b_vars s))); BSend (length (b_msgs s))]) = [OFrame [d']].
Proof.
  intros s d d'. run. replace (S (length (b_vars s))) with (length (b_vars s ++ [length (b_heap s)])) by (rewrite app_length; cbn; lia). run.
  unfold content. run. cbn [map]. rewrite !nth_snoc. reflexivity.
Qed.
(** A state with two properties, and a program in which the application edits only its own arrays. *)
Definition buf0 : bst := mkbst [(false, [0x30%Z]); (true, [1; 2]%Z)] [] [0; 1] [].
Definition buf_prog : list bop :=
  [BNew true [5%Z]; BEdit 0 (fun d => d ++ [6%Z]); BSet 0 0; BRead 0; BArrive [7%Z]; BSet 1 1; BGet 1; BLook 2; BRead 1; BMsg; BAdd 0 0; BAdd 0 1; BArrive [9%Z]; BSet 1 3; BSend 0;
   BNew false [1%Z]; BEdit 4 (fun _ => []); BCopy 1; BRead 2; BArrive [9%Z]; BRecord 1 5].
Lemma L_C101_ex : buf_ok buf0 /\ edits_alone buf0 buf_prog /\
  snd (brun buf0 buf_prog) = [OBytes [5; 6]%Z; OBytes [7%Z]; OBytes [7%Z]; OFrame [[5; 6]%Z; [9%Z]]; ORefused; OBytes [9%Z]; OTold false].
Proof.
  split; [|split].
  - repeat constructor.
  - cbn. repeat match goal with |- _ /\ _ => split end; try exact I.
    + left. intros r H. cbn in H. assert (r = 2) by congruence. subst. split; [cbn; lia|]. intros [|w] W; [reflexivity|]. destruct w; discriminate W.
    + right. exists 5, [1%Z]. split; reflexivity.
  - vm_compute. reflexivity.
Qed.
