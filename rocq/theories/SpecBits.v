(** Specifications for the exact form of C43. *)
From Verif Require Import PyBase NodeM LocalM SpecNode.

(** Registering user observer [n], or starting or stopping the node. *)
Inductive reg := RAdd (n : nat) | RLife (op : life).
Definition reg_step (w : os) (st : lnode * trace) (op : reg) : lnode * trace :=
  match op with
  | RAdd n => (local_add_observer (OUser n) (fst st), snd st)
  | RLife o => life_step w st o
  end.
Definition reg_run (w : os) (ops : list reg) (st : lnode * trace) : lnode * trace := fold_left (reg_step w) ops st.
(** The observers registered after the last start, in order. *)
Definition added_since (ops : list reg) : list nat :=
  fold_left (fun acc op => match op with RAdd n => acc ++ [n] | RLife (LStart _) => [] | RLife LStop => acc end) ops [].
