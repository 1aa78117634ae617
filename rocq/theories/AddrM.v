(** Model of the address of a node over any Python values, /repo/uecho/node.py:25-50.  NodeM.v models the same methods
    with addresses that are a string and a number. *)
From Verif Require Import PyBase.

(** A Python value as far as these methods look at it: a tuple, a string, a number, or anything else (lists included). *)
Inductive pyval := VTuple (items : list pyval) | VStr (s : string) | VInt (z : Z) | VOther (n : nat).

(** Node.__address, node.py:22, 26, 33: always a tuple; its items. *)
Notation anode := (list pyval).
(** Node.set_address, node.py:30-34. *)
Definition a_set (v : pyval) (n : anode) : anode * bool :=
  match v with
  | VTuple items => if (length items =? 2)%nat then (items, true) else (n, false)
  | _ => (n, false)
  end.
(** Node(addr), node.py:25-28; [VOther] for the default None. *)
Definition a_new (v : pyval) : anode := fst (a_set v []).
(** Node.address, node.py:36-38. *)
Definition a_address (n : anode) : pyval := VTuple n.
(** Node.ip, node.py:40-44. *)
Definition a_ip (n : anode) : pyval :=
  if negb (length n =? 2)%nat then VStr ""%string else nth 0 n (VOther 0).
(** Node.port, node.py:46-50. *)
Definition a_port (n : anode) : pyval :=
  if negb (length n =? 2)%nat then VInt 0 else VInt 3610.
(** Calls of set_address one after the other, with their results. *)
Fixpoint a_sets (vs : list pyval) (n : anode) : anode * list bool :=
  match vs with
  | [] => (n, [])
  | v :: vs => let '(n1, b) := a_set v n in let '(n2, bs) := a_sets vs n1 in (n2, b :: bs)
  end.
