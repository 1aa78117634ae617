(** Specifications for concurrent transaction identifiers (C39). *)
From Verif Require Import PyBase TidM.

(** The identifiers assigned, in the order of the returns, and the number of calls begun. *)
Definition tids (evs : list tev) : list Z := flat_map (fun e => match e with TRet _ t => [t] | _ => [] end) evs.
Definition begun (evs : list tev) : list nat := flat_map (fun e => match e with TBegin i => [i] | _ => [] end) evs.
(** [n] threads, none in a call; the last identifier assigned is [t]. *)
Definition threads (n : nat) (t : Z) : tst := mktst t (repeat TIdle n).
(** No two calls overlap: whenever a thread steps, all others are outside the function. *)
Definition alone (s : tst) (i : nat) : Prop :=
  forall j p, j <> i -> nth_error (t_pcs s) j = Some p -> p = TIdle.
Fixpoint one_at_a_time (s : tst) (sched : list nat) : Prop :=
  match sched with
  | [] => True
  | i :: r => alone s i /\ one_at_a_time (fst (tstep s i)) r
  end.
