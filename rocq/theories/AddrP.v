(** Proofs about the address of a node. *)
From Verif Require Import PyBase MsgM ObjM NodeM AddrM SpecAddr.

Lemma a_set_pair x y n : a_set (VTuple [x; y]) n = ([x; y], true).
Proof. reflexivity. Qed.
Lemma a_set_other v n : ~ is_pair v -> a_set v n = (n, false).
Proof.
  intros N. destruct v as [l| | |]; try reflexivity. destruct l as [|x [|y [|z l]]]; try reflexivity.
  exfalso. apply N. exists x, y. reflexivity.
Qed.
Lemma is_pair_dec v : is_pair v \/ ~ is_pair v.
Proof.
  destruct v as [l| | |]; [destruct l as [|x [|y [|z l]]]|right|right|right]; try (right; intros (p & q & E); discriminate E).
  - left. exists x, y. reflexivity.
  - intros (p & q & E); discriminate E.
  - intros (p & q & E); discriminate E.
  - intros (p & q & E); discriminate E.
Qed.

Lemma L_C116_accept : forall v n,
  (is_pair v /\ snd (a_set v n) = true /\ a_address (fst (a_set v n)) = v)
  \/ (~ is_pair v /\ snd (a_set v n) = false /\ a_address (fst (a_set v n)) = a_address n).
Proof.
  intros v n. destruct (is_pair_dec v) as [P|P].
  - left. destruct P as (x & y & ->). split; [exists x, y; reflexivity|]. rewrite a_set_pair. split; reflexivity.
  - right. rewrite (a_set_other v n P). repeat split; auto.
Qed.

Lemma a_sets_last vs : forall n, exists v, a_address (fst (a_sets vs n)) = v /\
  ((exists before later, vs = before ++ v :: later /\ is_pair v /\ Forall (fun w => ~ is_pair w) later)
   \/ (v = a_address n /\ Forall (fun w => ~ is_pair w) vs)).
Proof.
  induction vs as [|w vs IH]; intros n.
  - exists (a_address n). split; [reflexivity|]. right. split; [reflexivity|constructor].
  - cbn [a_sets]. destruct (a_set w n) as [n1 b] eqn:E. destruct (a_sets vs n1) as [n2 bs] eqn:E2. cbn [fst].
    destruct (IH n1) as (v & Ev & H). rewrite E2 in Ev. cbn [fst] in Ev. exists v. split; [exact Ev|].
    destruct H as [(be & la & -> & P & F)|(Ev' & F)].
    + left. exists (w :: be), la. repeat split; auto.
    + destruct (is_pair_dec w) as [P|P].
      * left. exists [], vs. assert (v = w) as ->.
        { rewrite Ev'. destruct P as (x & y & ->). rewrite a_set_pair in E. assert (n1 = [x; y]) as -> by congruence. reflexivity. }
        repeat split; auto.
      * right. rewrite (a_set_other w n P) in E. assert (n1 = n) as -> by congruence. split; [exact Ev'|constructor; assumption].
Qed.

Lemma L_C116_history : forall v0 vs v,
  a_address (fst (a_sets vs (a_new v0))) = v <-> last_pair (v0 :: vs) v.
Proof.
  assert (K : forall v0 vs, last_pair (v0 :: vs) (a_address (fst (a_sets vs (a_new v0))))).
  { intros v0 vs. destruct (a_sets_last (v0 :: vs) []) as (v & Ev & H). cbn [a_sets] in Ev.
    unfold a_new. destruct (a_set v0 []) as [n1 b]. cbn [fst]. destruct (a_sets vs n1) as [n2 bs]. cbn [fst] in *.
    rewrite Ev. exact H. }
  intros v0 vs v. split; [intros <-; apply K|].
  intros H. specialize (K v0 vs). set (u := a_address (fst (a_sets vs (a_new v0)))) in *. clearbody u.
  destruct K as [(b1 & l1 & E1 & P1 & F1)|(E1 & F1)], H as [(b2 & l2 & E2 & P2 & F2)|(E2 & F2)].
  - rewrite E1 in E2. clear E1 vs v0. revert b2 E2. induction b1 as [|x b1 IH]; intros [|y b2] E2; cbn in E2.
    + congruence.
    + exfalso. assert (l1 = b2 ++ v :: l2) as -> by congruence. rewrite Forall_forall in F1. apply (F1 v); [apply in_elt|exact P2].
    + exfalso. assert (l2 = b1 ++ u :: l1) as -> by congruence. rewrite Forall_forall in F2. apply (F2 u); [apply in_elt|exact P1].
    + apply (IH b2). congruence.
  - exfalso. rewrite E1, Forall_forall in F2. apply (F2 u); [apply in_elt|exact P1].
  - exfalso. rewrite E2, Forall_forall in F1. apply (F1 v); [apply in_elt|exact P2].
  - congruence.
Qed.

(** What a node shows. *)
Lemma L_C116_parts_partial : forall v0 vs,
  let n := fst (a_sets vs (a_new v0)) in
  (a_address n = VTuple [] -> a_ip n = VStr "" /\ a_port n = VInt 0) /\
  (forall x y, a_address n = VTuple [x; y] -> a_ip n = x /\ a_port n = VInt 3610) /\
  (a_address n = VTuple [] \/ is_pair (a_address n)).
Proof.
  intros v0 vs n. split; [|split].
  - unfold a_address. intros E. assert (n = []) as -> by congruence. split; reflexivity.
  - unfold a_address. intros x y E. assert (n = [x; y]) as -> by congruence. split; reflexivity.
  - destruct (proj1 (L_C116_history v0 vs _) eq_refl) as [(b & l & _ & P & _)|(E & _)]; [right; exact P|left; exact E].
Qed.

Lemma L_C116_port_refuted : exists v0 x y, a_address (a_new v0) = VTuple [x; y] /\ a_port (a_new v0) <> y.
Proof. exists (VTuple [VStr "10.0.0.5"; VInt 80]), (VStr "10.0.0.5"), (VInt 80). split; [reflexivity|discriminate]. Qed.

(** The items are not looked at. *)
Lemma L_C116_items_boundary : forall x y n, a_set (VTuple [x; y]) n = ([x; y], true) /\ a_ip (fst (a_set (VTuple [x; y]) n)) = x.
Proof. intros x y n. split; reflexivity. Qed.

(** The model of nodes used everywhere else. *)
Lemma L_C116_nodes : forall (w : option addr) (n : node),
  let v := match w with Some a => typed a | None => VOther 0 end in
  let shown (k : node) := match n_addr k with Some a => typed a | None => VTuple [] end in
  forall m, a_address m = shown n ->
  snd (set_address w n) = snd (a_set v m) /\
  a_address (fst (a_set v m)) = shown (fst (set_address w n)) /\
  n_objs (fst (set_address w n)) = n_objs n /\
  a_ip m = VStr (node_ip n) /\ a_port m = VInt (node_port n).
Proof.
  intros w [a objs] v shown m E. unfold shown in *. cbn [n_addr] in E.
  assert (I : a_ip m = VStr (node_ip (mknode a objs)) /\ a_port m = VInt (node_port (mknode a objs))).
  { unfold a_address in E. destruct a as [[h q]|].
    - assert (m = [VStr h; VInt q]) as -> by (unfold typed in E; cbn [fst snd] in E; congruence). split; reflexivity.
    - assert (m = []) as -> by congruence. split; reflexivity. }
  destruct w as [[h q]|]; cbn; repeat split; try apply I. exact E.
Qed.
