(** Specification of destinations (C120). *)
From Verif Require Import PyBase MsgM NodeM AddrM DestM.

(** The destination is a documented one and names host [h] and port [p]. *)
Inductive names : ddest -> string -> Z -> Prop :=
| names_str h : names (TVal (VStr h)) h 3610
| names_pair h p : 0 <= p <= 65535 -> names (TVal (VTuple [VStr h; VInt p])) h p
| names_node h y : names (TNode [VStr h; y]) h 3610.
(** What else is taken for an address: a node without one, and byte strings in the place of the host. *)
Inductive taken (bs : nat -> option string) : ddest -> string -> Z -> Prop :=
| taken_none : taken bs (TNode []) "" 0
| taken_bytes n h p : bs n = Some h -> 0 <= p <= 65535 -> taken bs (TVal (VTuple [VOther n; VInt p])) h p
| taken_node n h y : bs n = Some h -> taken bs (TNode [VOther n; y]) h 3610.
(** No string, no tuple of two items and no node. *)
Definition foreign (d : ddest) : Prop :=
  match d with TVal (VStr _) | TVal (VTuple [_; _]) | TNode _ => False | _ => True end.
(** The address of a node has no or two items (C116). *)
Definition real (d : ddest) : Prop := match d with TNode n => n = [] \/ exists x y, n = [x; y] | _ => True end.
(** A host: a string or a byte string. *)
Definition no_host (bs : nat -> option string) (x : pyval) : Prop :=
  match x with VStr _ => False | VOther n => bs n = None | _ => True end.
Definition no_port (y : pyval) : Prop := match y with VInt _ => False | _ => True end.
