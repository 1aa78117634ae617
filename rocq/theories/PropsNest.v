(** Property C96: callbacks that call post_message. *)
From Verif Require Import PyBase EsvM MsgM NodeM TidM PostM SpecPost NestM SpecNest PostP RaceP NestP.

(** C96: calls that do not overlap with others return what they should, in callbacks and elsewhere. *)
Theorem C96_orderly_partial : forall n l sched s' evs, nest_orderly (new_nest n l) sched ->
  nrun (new_nest n l) sched = (s', evs) -> returns_right (map snd evs).
Proof. exact L_C96_orderly_partial. Qed.
Print Assumptions C96_orderly_partial.
(** C96: the lock excludes, and no schedule leads into a deadlock. *)
Theorem C96_lock : forall n l sched s' evs, nrun (new_nest n l) sched = (s', evs) ->
  forall i j p p', nth_error (p_pcs (n_post s')) i = Some p -> nth_error (p_pcs (n_post s')) j = Some p' -> in_lock p = true -> in_lock p' = true -> i = j.
Proof. exact L_C96_lock. Qed.
Print Assumptions C96_lock.
Theorem C96_no_deadlock : forall n l sched s' evs, nrun (new_nest n l) sched = (s', evs) -> exists sched2 s2 evs2,
  (forall i a, In (i, a) sched2 -> a = AStep \/ a = ASend true) /\ nrun s' sched2 = (s2, evs2) /\
  (forall j p, nth_error (p_pcs (n_post s2)) j = Some p -> p = PIdle) /\ forall j, held s2 j = None.
Proof. exact L_C96_no_deadlock. Qed.
Print Assumptions C96_no_deadlock.
(** C96: finding.  If one thread receives all messages, a call in a callback never gets its response. *)
Theorem C96_deaf_refuted : forall n l r sched s' evs, one_receiver r sched -> nrun (new_nest n l) sched = (s', evs) ->
  forall i q x, In (true, EReturn i q x) evs -> x = None.
Proof. exact L_C96_deaf_refuted. Qed.
Print Assumptions C96_deaf_refuted.
(** C96: finding.  A call in a callback takes the place of the call whose response is being handled: that call returns another response or None. *)
Theorem C96_stolen_refuted : forall m1, response m1 -> m_TID m1 = 1 -> exists sched s' evs m2 e,
  nrun (new_nest 3 [0; 0]) sched = (s', evs) /\
  evs = [(false, EBegin 0 0); (false, ETid 0 0 1); (false, ESent 0 0 1); (false, EArrive 1 m1); (true, EBegin 1 1); (true, ETid 1 1 2); (true, ESent 1 1 2);
         (false, EArrive 2 m2); (false, EReturn 0 0 (Some m2))] ++ e /\ m_TID m2 = 2.
Proof. exact L_C96_stolen_refuted. Qed.
Print Assumptions C96_stolen_refuted.
Theorem C96_dropped_refuted : exists sched s' evs m1,
  one_receiver 1 sched /\ nrun (new_nest 2 [0; 0]) sched = (s', evs) /\ response m1 /\
  evs = [(false, EBegin 0 0); (false, ETid 0 0 1); (false, ESent 0 0 1); (false, EArrive 1 m1); (true, EBegin 1 1); (true, ETid 1 1 2); (true, ESent 1 1 2);
         (true, ETimeout 1 1); (true, EReturn 1 1 None); (false, ETimeout 0 0); (false, EReturn 0 0 None)] /\ m_TID m1 = 1 /\
  forall j p, nth_error (p_pcs (n_post s')) j = Some p -> p = PIdle.
Proof. exact L_C96_dropped_refuted. Qed.
Print Assumptions C96_dropped_refuted.
(** A callback in thread 1 calls twice; thread 2 receives the responses; then the thread handles the next message. *)
Definition nx_sched : list (nat * act) :=
  (1%nat, ARecv (rsp 9)) :: to_sleep 1 0 ++ handle 2 (rsp 1) ++ st 1 4 ++ to_sleep 1 1 ++ handle 2 (rsp 2) ++ st 1 4 ++ st 1 12 ++ to_sleep 0 2 ++ handle 1 (rsp 3) ++ st 0 4.
Example C96_ex : nest_orderly (new_nest 3 [0; 0; 0]) nx_sched /\
  snd (nrun (new_nest 3 [0; 0; 0]) nx_sched) =
  [(false, EArrive 1 (rsp 9)); (true, EBegin 1 0); (true, ETid 1 0 1); (true, ESent 1 0 1); (false, EArrive 2 (rsp 1)); (true, EReturn 1 0 (Some (rsp 1)));
   (true, EBegin 1 1); (true, ETid 1 1 2); (true, ESent 1 1 2); (false, EArrive 2 (rsp 2)); (true, EReturn 1 1 (Some (rsp 2)));
   (false, EBegin 0 2); (false, ETid 0 2 3); (false, ESent 0 2 3); (false, EArrive 1 (rsp 3)); (false, EReturn 0 2 (Some (rsp 3)))].
Proof. split; [apply nest_orderlyb_ok|]; vm_compute; reflexivity. Qed.
