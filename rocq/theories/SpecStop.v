(** Vocabulary of C86 and C87: a node that is running, who asks for what, and fair schedules. *)
From Coq Require Import Sorted.
From Verif Require Import PyBase StopM.
Local Open Scope nat_scope.

(** A server that was started and not stopped, and one that was stopped. *)
Definition live (v : sk) : Prop := k_ref v = true /\ k_shut v = false /\ k_closed v = false.
Definition dead (v : sk) : Prop := k_ref v = false /\ k_closed v = true.
(** Receiving threads may have ended (a callback raised); none is in the middle of a callback. *)
Definition outside (r : rpc) : Prop := match r with RIn _ => False | _ => True end.
Definition started (s : qst) : Prop :=
  q_cleared s = false /\ length (q_recv s) = length (q_socks s) /\
  forall i v r, nth_error (q_socks s) i = Some v -> nth_error (q_recv s) i = Some r ->
    outside r /\ (live v \/ dead v /\ r = REnd).

(** The threads of the user: the first calls stop(), the others send or announce one message. *)
Definition asks_send (t : tpc) : Prop := exists ann, t = TSendBegin ann.
Definition one_stop (s : qst) : Prop := exists us, q_users s = TStopBegin :: us /\ Forall asks_send us.
(** No callback calls stop(). *)
Definition polite (cb : nat -> nat -> deed) : Prop := forall i d, cb i d <> DStop.

Definition user_done (s : qst) (u : nat) (r : sres) : Prop := nth_error (q_users s) u = Some (TDone r).
Definition all_ended (s : qst) : Prop := Forall (eq REnd) (q_recv s) /\ Forall dead (q_socks s).
(** In a round every thread makes at least one step. *)
Definition round (receivers users : nat) (l : list turn) : Prop :=
  (forall u, u < users -> In (User u) l) /\ (forall i, i < receivers -> exists d, In (Recv i d) l).

(** The callbacks of server [i] in a list of callbacks, the datagrams sent through server [k]. *)
Definition calls_of (i : nat) (l : list (nat * nat)) : list (nat * nat) := filter (fun c => fst c =? i) l.
Definition sent_by (k : nat) (l : list nat) : list nat := filter (Nat.eqb k) l.
(** No callback sends; thread [u] of the user is the only one that sends, the others call stop(). *)
Definition mute (cb : nat -> nat -> deed) : Prop := forall i d ann, cb i d <> DSend ann.
Definition one_sender (u : nat) (ann : bool) (s : qst) : Prop :=
  nth_error (q_users s) u = Some (TSendBegin ann) /\ (forall j t, nth_error (q_users s) j = Some t -> j <> u -> t = TStopBegin) /\
  Forall outside (q_recv s) /\ q_sent s = [].
(** Through unicast servers, each at most once, in the order of the servers. *)
Definition in_order (socks : list sk) (l : list nat) : Prop :=
  StronglySorted lt l /\ Forall (fun k => exists v, nth_error socks k = Some v /\ k_uni v = true) l.
