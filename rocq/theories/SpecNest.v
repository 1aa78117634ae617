(** Specifications for calls of post_message in callbacks (C96). *)
From Verif Require Import PyBase EsvM MsgM NodeM TidM PostM SpecPost NestM.

(** All messages are received by thread [r]. *)
Definition one_receiver (r : nat) (sched : list (nat * act)) : Prop := forall i m, In (i, ARecv m) sched -> i = r.
(** The threads outside [i] neither call nor handle a message. *)
Definition others_quiet (s : nst) (i : nat) : Prop :=
  forall j p, j <> i -> nth_error (p_pcs (n_post s)) j = Some p -> p = PIdle.
(** Calls begin while all other threads are outside both functions, and the beginning of a call (up to
    the assignment of the TID) is not interrupted by other threads. *)
Fixpoint nest_orderly (s : nst) (sched : list (nat * act)) : Prop :=
  match sched with
  | [] => True
  | (i, a) :: r =>
      match nstep s i a with
      | None => nest_orderly s r
      | Some (s1, _) =>
          match a with APost _ => others_quiet s i | _ => True end /\
          (forall j p, j <> i -> nth_error (p_pcs (n_post s)) j = Some p -> early p = false) /\
          nest_orderly s1 r
      end
  end.
