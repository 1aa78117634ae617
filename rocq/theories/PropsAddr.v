(** Property C116: the address of a node. *)
From Verif Require Import PyBase MsgM ObjM NodeM AddrM SpecAddr AddrP.

(** C116: what is accepted. *)
Theorem C116_accept : forall v n,
  (is_pair v /\ snd (a_set v n) = true /\ a_address (fst (a_set v n)) = v)
  \/ (~ is_pair v /\ snd (a_set v n) = false /\ a_address (fst (a_set v n)) = a_address n).
Proof. exact L_C116_accept. Qed.
Print Assumptions C116_accept.
(** C116: what a node shows after any calls. *)
Theorem C116_history : forall v0 vs v,
  a_address (fst (a_sets vs (a_new v0))) = v <-> last_pair (v0 :: vs) v.
Proof. exact L_C116_history. Qed.
Print Assumptions C116_history.
(** C116: the parts of the address. *)
Theorem C116_parts_partial : forall v0 vs,
  let n := fst (a_sets vs (a_new v0)) in
  (a_address n = VTuple [] -> a_ip n = VStr "" /\ a_port n = VInt 0) /\
  (forall x y, a_address n = VTuple [x; y] -> a_ip n = x /\ a_port n = VInt 3610) /\
  (a_address n = VTuple [] \/ is_pair (a_address n)).
Proof. exact L_C116_parts_partial. Qed.
Print Assumptions C116_parts_partial.
(** C116: the port is not the port of the address. *)
Theorem C116_port_refuted : exists v0 x y, a_address (a_new v0) = VTuple [x; y] /\ a_port (a_new v0) <> y.
Proof. exact L_C116_port_refuted. Qed.
Print Assumptions C116_port_refuted.
(** C116: the items are not looked at. *)
Theorem C116_items_boundary : forall x y n, a_set (VTuple [x; y]) n = ([x; y], true) /\ a_ip (fst (a_set (VTuple [x; y]) n)) = x.
Proof. exact L_C116_items_boundary. Qed.
Print Assumptions C116_items_boundary.
(** C116: the nodes of NodeM.v. *)
Theorem C116_nodes : forall (w : option addr) (n : node),
  let v := match w with Some a => typed a | None => VOther 0 end in
  let shown (k : node) := match n_addr k with Some a => typed a | None => VTuple [] end in
  forall m, a_address m = shown n ->
  snd (set_address w n) = snd (a_set v m) /\
  a_address (fst (a_set v m)) = shown (fst (set_address w n)) /\
  n_objs (fst (set_address w n)) = n_objs n /\
  a_ip m = VStr (node_ip n) /\ a_port m = VInt (node_port n).
Proof. exact L_C116_nodes. Qed.
Print Assumptions C116_nodes.
(** A node created without an address, four calls, two of them accepted. *)
Definition ax_calls : list pyval :=
  [VTuple [VStr "10.0.0.5"; VInt 3610]; VTuple [VStr "10.0.0.6"]; VTuple [VStr "10.0.0.7"; VInt 80]; VStr "10.0.0.8"].
Example C116_ex : a_sets ax_calls (a_new (VOther 0)) = ([VStr "10.0.0.7"; VInt 80], [true; false; true; false]).
Proof. reflexivity. Qed.
Example C116_last_ex : last_pair (VOther 0 :: ax_calls) (VTuple [VStr "10.0.0.7"; VInt 80]) /\ last_pair [VOther 0; VStr "x"] (VTuple []).
Proof. split; apply C116_history; reflexivity. Qed.
Example C116_parts_ex : a_ip [VStr "10.0.0.7"; VInt 80] = VStr "10.0.0.7" /\ a_port [VStr "10.0.0.7"; VInt 80] = VInt 3610 /\ a_ip (a_new (VOther 0)) = VStr "" /\ a_port (a_new (VOther 0)) = VInt 0.
Proof. repeat split. Qed.
Example C116_nodes_ex : snd (set_address (Some ("10.0.0.5"%string, 80)) (new_node None)) = true /\ snd (set_address None (new_node None)) = false.
Proof. split; reflexivity. Qed.
