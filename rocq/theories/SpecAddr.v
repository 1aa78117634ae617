(** Specification of the address of a node (C116). *)
From Verif Require Import PyBase AddrM.

(** The values a node takes as its address: tuples of two items. *)
Definition is_pair (v : pyval) : Prop := exists x y, v = VTuple [x; y].
(** [v] is the last of [vs] that is a pair; the empty tuple when there is none. *)
Definition last_pair (vs : list pyval) (v : pyval) : Prop :=
  (exists before later, vs = before ++ v :: later /\ is_pair v /\ Forall (fun w => ~ is_pair w) later)
  \/ (v = VTuple [] /\ Forall (fun w => ~ is_pair w) vs).
(** A pair of a string and a number. *)
Definition typed (a : string * Z) : pyval := VTuple [VStr (fst a); VInt (snd a)].
