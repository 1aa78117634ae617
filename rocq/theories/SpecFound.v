(** Specifications for the table of found nodes under several threads (C76). *)
From Verif Require Import PyBase MsgM ObjM NodeM LocalM CtrlM TidM FoundM.

(** The table, and the thread [i], after [k] steps of a schedule. *)
Definition at_step (rsv : nat -> string -> res string) (s : fst_) (sched : list nat) (k : nat) : fst_ :=
  fst (frun rsv s (firstn k sched)).
Definition tab_at rsv s sched k := f_tab (at_step rsv s sched k).
Definition pc_at rsv s sched i k := nth_error (f_pcs (at_step rsv s sched k)) i.
(** The call of thread [i] takes the steps [b], ..., [e - 1] of the schedule (and others' in between). *)
Definition during rsv s sched i (b e : nat) : Prop :=
  (b < e <= length sched)%nat /\ nth_error sched b = Some i /\ nth_error sched (e - 1) = Some i /\
  pc_at rsv s sched i b = nth_error (f_pcs s) i /\
  (forall k, (b < k < e)%nat -> forall r, pc_at rsv s sched i k <> Some (PDone r)) /\
  exists r, pc_at rsv s sched i e = Some (PDone r).
(** No new IP address gets into the table from step [b] to step [e]. *)
Definition same_ips rsv s sched (b e : nat) : Prop :=
  forall k, (b <= k <= e)%nat -> dkeys (tab_at rsv s sched k) = dkeys (tab_at rsv s sched b).
(** [n] is stored under [ip] at some moment from step [b] to step [e]. *)
Definition stored rsv s sched (b e : nat) (ip : string) (n : node) : Prop :=
  exists k, (b <= k < e)%nat /\ sget ip (tab_at rsv s sched k) = Some n.
(** [a] denotes the IP address [ip]: itself, or by the answer of the resolver at some step. *)
Definition denotes (rsv : nat -> string -> res string) (a : addr_arg) (ip : string) : Prop :=
  match a with
  | GATup x => x = ip
  | GAStr x => x = ip \/ exists t, rsv t x = Ok ip
  | GAOther => False
  end.
(** [a] does not denote [ip]. *)
Definition refused (rsv : nat -> string -> res string) (a : addr_arg) (ip : string) : Prop :=
  match a with
  | GATup x => x <> ip
  | GAStr x => x <> ip /\ exists t y, rsv t x = Ok y /\ y <> ip
  | GAOther => True
  end.
(** Threads that have not begun their calls. *)
Definition fresh (s : fst_) : Prop :=
  NoDup (dkeys (f_tab s)) /\
  Forall (fun p => match p with PAdd _ | PGet _ | PNodes => True | _ => False end) (f_pcs s).
(** What thread [i] told the listeners. *)
Definition told (i : nat) (evs : list fev) : list (node * bool) :=
  flat_map (fun e => match e with FTold j n k => if Nat.eqb j i then [(n, k)] else [] end) evs.
