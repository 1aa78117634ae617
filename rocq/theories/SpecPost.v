(** Specifications for post_message (C51-C54). *)
From Verif Require Import PyBase EsvM MsgM NodeM TidM PostM.

(** ** What is said about traces *)
(** [m] is a response: its service code asks for nothing. *)
Definition response (m : msg) : Prop :=
  ~ In (m_ESV m) [0x60; 0x61; 0x62; 0x63; 0x6E; 0x74].
(** A call of post_message with message object [q] by thread [i] is the last one begun in [e]; [b] is
    what happened since. *)
Definition last_call (e : list pev) (i q : nat) (b : list pev) : Prop :=
  exists a, e = a ++ EBegin i q :: b /\ forall j p, ~ In (EBegin j p) b.
(** What may be claimed of a call that returns: [b] what happened during it. *)
Definition right_return (i q : nat) (r : option msg) (b : list pev) : Prop :=
  match r with
  | Some m => response m /\ In (ESent i q (m_TID m)) b /\ exists j, In (EArrive j m) b
  | None => In (EUnsent i q) b \/ In (ETimeout i q) b
  end.
Definition returns_right (evs : list pev) : Prop :=
  forall e1 i q r e2, evs = e1 ++ EReturn i q r :: e2 -> exists b, last_call e1 i q b /\ right_return i q r b.

(** ** Schedules *)
Definition one_poster (sched : list (nat * act)) : Prop :=
  forall i a, In (i, a) sched -> match a with APost _ => i = 0%nat | ARecv _ => i <> 0%nat | _ => True end.
Definition others_idle (s : pst) (i : nat) : Prop :=
  forall j p, j <> i -> nth_error (p_pcs s) j = Some p -> p = PIdle.
(** Before the request is complete (its TID assigned); before the caller sleeps. *)
Definition early (p : pc) : bool := match p with PReq _ | PReqAt _ _ | PTid _ => true | _ => false end.
Definition before_sleep (p : pc) : bool :=
  match p with PReq _ | PReqAt _ _ | PTid _ | PSend _ | PAcq _ | PWait _ => true | _ => false end.
(** Calls begin while all other threads are outside both functions, and a thread in the part [f] of
    its call is not interrupted. *)
Fixpoint orderly (f : pc -> bool) (s : pst) (sched : list (nat * act)) : Prop :=
  match sched with
  | [] => True
  | (i, a) :: r =>
      match pstep s i a with
      | None => orderly f s r
      | Some (s1, _) =>
          match a with APost _ => others_idle s i | _ => True end /\
          (forall j p, j <> i -> nth_error (p_pcs s) j = Some p -> f p = false) /\
          orderly f s1 r
      end
  end.

(** ** The lock (C66) *)
(** Between acquire() and release() on self.__last_post_cond: lines 202 and 203, 302 and 303. *)
Definition in_lock (p : pc) : bool := match p with PWait _ | PRel _ | RNotify _ | RRel _ => true | _ => false end.
(** How many entries of a schedule are possible steps. *)
Fixpoint steps (s : pst) (sched : list (nat * act)) : nat :=
  match sched with
  | [] => 0
  | (i, a) :: r => match pstep s i a with None => steps s r | Some (s1, _) => S (steps s1 r) end
  end.
