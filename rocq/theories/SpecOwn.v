(** Specifications for C100: the answer that post_message returns is the answer to its own request. *)
From Verif Require Import PyBase EsvM MsgM NodeM TidM PostM SpecPost.
Local Open Scope nat_scope.

(** The message objects given to post_message, in the order of the calls. *)
Fixpoint posts (evs : list pev) : list nat :=
  match evs with
  | [] => []
  | EBegin _ q :: r => q :: posts r
  | _ :: r => posts r
  end.
(** [origin] tells for each position of the trace at which a message arrives the position at which the
    request was sent that the message answers; an answer comes after its request and carries its TID. *)
Definition answers_only (evs : list pev) (origin : nat -> nat) : Prop :=
  forall a j m, nth_error evs a = Some (EArrive j m) -> response m ->
  origin a < a /\ exists i q, nth_error evs (origin a) = Some (ESent i q (m_TID m)).
(** The message a call returns arrived during the call, and it answers a request sent from the same
    message object. *)
Definition same_object (evs : list pev) (origin : nat -> nat) : Prop :=
  forall e1 i q m e2, evs = e1 ++ EReturn i q (Some m) :: e2 ->
  exists e0 b a j i', e1 = e0 ++ EBegin i q :: b /\
    nth_error evs a = Some (EArrive j m) /\ length e0 < a < length e1 /\
    nth_error evs (origin a) = Some (ESent i' q (m_TID m)).
(** ... and that request was sent by this very call. *)
Definition own_answer (evs : list pev) (origin : nat -> nat) : Prop :=
  forall e1 i q m e2, evs = e1 ++ EReturn i q (Some m) :: e2 ->
  exists e0 b a j, e1 = e0 ++ EBegin i q :: b /\ (forall k p, ~ In (EBegin k p) b) /\
    nth_error evs a = Some (EArrive j m) /\ length e0 < origin a < a /\ a < length e1 /\
    nth_error evs (origin a) = Some (ESent i q (m_TID m)).
