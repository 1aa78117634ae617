(** Property C99: starting and stopping a node while messages arrive. *)
From Verif Require Import PyBase StartM SpecStart StartP.
Local Open Scope nat_scope.

(** C99: what a server received is handled once and in order: first what came before the node was an
    observer and is lost, then what the node handles, then what waits.  Any number of threads. *)
Theorem C99_fifo : forall n k l s e v, zrun n (new_sst k) l = (s, e) ->
  got v e = lost v e ++ told v e ++ waiting_at s v.
Proof. exact L_C99_fifo. Qed.
Print Assumptions C99_fifo.
(** C99: start and stop raise only if bind raises.  Any number of threads. *)
Theorem C99_raises : forall n k l s e u, zrun n (new_sst k) l = (s, e) -> no_fail l -> ~ In (ERaise u) e.
Proof. exact L_C99_raises. Qed.
Print Assumptions C99_raises.
(** C99: a call can always come to its end, wherever the other threads are. *)
Theorem C99_returns : forall n k l s e u, zrun n (new_sst k) l = (s, e) -> u < k ->
  exists l1 s1 e1, only_thread u l1 /\ zrun n s l1 = (s1, e1) /\ nth_error (z_users s1) u = Some UIdle.
Proof. exact L_C99_returns. Qed.
Print Assumptions C99_returns.
(** C99: one thread: after a successful start there are exactly a unicast and a multicast server for each
    interface. *)
Theorem C99_started : forall n l s e, zrun n (new_sst 1) l = (s, e) -> last_call e = Some (EBack 0 CStart true) ->
  map kind (filter v_open (z_srv s)) = all_servers n /\ z_addr s = Some (Some 0) /\
  Forall (fun x => v_obs x = true /\ v_pc x <> RNew /\ v_pc x <> REnd) (filter v_open (z_srv s)) /\
  Forall (fun x => v_open x = false -> v_pc x = REnd) (z_srv s).
Proof. exact L_C99_started. Qed.
Print Assumptions C99_started.
(** C99: one thread: what a server has received after a successful start is handled. *)
Theorem C99_served : forall n l s e v x, zrun n (new_sst 1) l = (s, e) -> last_call e = Some (EBack 0 CStart true) ->
  nth_error (z_srv s) v = Some x -> v_open x = true ->
  exists k s1, zrun n s (repeat (TRecv v) k) = (s1, map (ETold v) (waiting x)).
Proof. exact L_C99_served. Qed.
Print Assumptions C99_served.
(** C99: one thread: nothing is lost after a successful start, until the next call. *)
Theorem C99_kept : forall n l s e e1 v d e2, zrun n (new_sst 1) l = (s, e) -> e = e1 ++ ELost v d :: e2 ->
  last_call e1 <> Some (EBack 0 CStart true).
Proof. exact L_C99_kept. Qed.
Print Assumptions C99_kept.
(** C99: one thread: after stop everything is closed. *)
Theorem C99_stopped : forall n l s e, zrun n (new_sst 1) l = (s, e) -> last_call e = Some (EBack 0 CStop true) ->
  Forall (fun x => v_open x = false /\ v_pc x = REnd) (z_srv s).
Proof. exact L_C99_stopped. Qed.
Print Assumptions C99_stopped.
(** C99: one thread: nothing is received or handled after stop. *)
Theorem C99_silent : forall n l s e e1 x v d e2, zrun n (new_sst 1) l = (s, e) -> e = e1 ++ x :: e2 ->
  (x = EGot v d \/ x = ETold v d \/ x = ELost v d) -> last_call e1 <> Some (EBack 0 CStop true).
Proof. exact L_C99_silent. Qed.
Print Assumptions C99_silent.
(** C99: one thread: start returns False only without interfaces. *)
Theorem C99_false : forall n l s e, zrun n (new_sst 1) l = (s, e) -> In (EBack 0 CStart false) e -> n = 0.
Proof. exact L_C99_false. Qed.
Print Assumptions C99_false.
(** C99: one thread: a message is handled only when the node has its address and all servers are started. *)
Theorem C99_ready : forall n l s e v d s1, zrun n (new_sst 1) l = (s, e) -> zstep n s (TRecv v) = (s1, [ETold v d]) ->
  z_addr s = Some (Some 0) /\ exists old new, z_srv s = old ++ new /\ length old <= v /\
    Forall (fun x => v_open x = false /\ v_pc x = REnd) old /\ map kind new = all_servers n /\ Forall (fun x => v_pc x <> RNew) new.
Proof. exact L_C99_ready. Qed.
Print Assumptions C99_ready.
(** C99: finding.  A message that arrives during a successful start is lost. *)
Theorem C99_early_refuted : forall d, exists l s e, zrun 1 (new_sst 1) l = (s, e) /\ no_fail l /\
  last_call e = Some (EBack 0 CStart true) /\ got 0 e = [d] /\ lost 0 e = [d] /\ told 0 e = [].
Proof. exact L_C99_early_refuted. Qed.
Print Assumptions C99_early_refuted.
(** C99: finding.  A start that raises leaves a running server, and what it receives is lost. *)
Theorem C99_raise_refuted : forall d, exists l s e, zrun 1 (new_sst 1) l = (s, e) /\
  last_call e = Some (ERaise 0) /\ nth_error (z_users s) 0 = Some UIdle /\
  (exists x, nth_error (z_srv s) 0 = Some x /\ running x) /\ got 0 e = [d] /\ lost 0 e = [d].
Proof. exact L_C99_raise_refuted. Qed.
Print Assumptions C99_raise_refuted.
(** C99: finding.  Two calls of start at the same time both succeed and leave two servers of each kind. *)
Theorem C99_twice_refuted : exists l s e, zrun 1 (new_sst 2) l = (s, e) /\ no_fail l /\
  In (EBack 0 CStart true) e /\ In (EBack 1 CStart true) e /\ ~ In (ECall 0 CStop) e /\ ~ In (ECall 1 CStop) e /\
  map kind (filter v_open (z_srv s)) = [(0, true); (0, false); (0, true); (0, false)] /\
  Forall (fun x => running x /\ v_obs x = true) (z_srv s).
Proof. exact L_C99_twice_refuted. Qed.
Print Assumptions C99_twice_refuted.
(** C99: finding.  start and stop at the same time both succeed and leave a node that receives only multicast
    messages and has no address. *)
Theorem C99_half_refuted : exists l s e, zrun 1 (new_sst 2) l = (s, e) /\ no_fail l /\
  In (EBack 1 CStop true) e /\ last_call e = Some (EBack 0 CStart true) /\
  map kind (filter v_open (z_srv s)) = [(0, false)] /\ z_addr s = Some None.
Proof. exact L_C99_half_refuted. Qed.
Print Assumptions C99_half_refuted.
(** C99: finding.  start and stop at the same time both succeed and leave servers that handle messages and that
    no later call closes. *)
Theorem C99_leak_refuted : exists l s e, zrun 1 (new_sst 2) l = (s, e) /\ no_fail l /\ z_users s = [UIdle; UIdle] /\
  In (EBack 0 CStart true) e /\ last_call e = Some (EBack 1 CStop true) /\
  forall l2 s2 e2 v, v < 2 -> zrun 1 s l2 = (s2, e2) ->
    exists x, nth_error (z_srv s2) v = Some x /\ v_open x = true /\ v_pc x <> REnd /\ v_obs x = true.
Proof. exact L_C99_leak_refuted. Qed.
Print Assumptions C99_leak_refuted.
(** Start, receive, stop. *)
Theorem C99_ex :
  let '(s, e) := zrun 2 (new_sst 1) w_ex in
  e = [ECall 0 CStart; EBack 0 CStart true; EGot 1 7; EGot 2 8; EGot 2 9; ETold 1 7; ETold 2 8; ETold 2 9; ECall 0 CStop; EBack 0 CStop true] /\
  z_addr s = Some (Some 0) /\ map kind (z_srv s) = all_servers 2.
Proof. exact L_C99_ex. Qed.
Print Assumptions C99_ex.
