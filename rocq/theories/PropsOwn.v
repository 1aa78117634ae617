(** Property C100: post_message returns the answer to its own request. *)
From Verif Require Import PyBase EsvM MsgM NodeM TidM PostM SpecPost SpecOwn PostP OwnP.
Local Open Scope nat_scope.

(** C100: if every response answers a request sent before, and every call has its own message object, a
    call returns only an answer to the request it sent itself, however late other answers come; up to 65535
    messages, calls one after the other as in C51. *)
Theorem C100_own_partial : forall n k sched s' evs origin, (Z.of_nat k <= 65535)%Z ->
  orderly early (new_post n (repeat 0%Z k)) sched ->
  prun (new_post n (repeat 0%Z k)) sched = (s', evs) -> answers_only evs origin ->
  (* a new message object for each call *)
  NoDup (posts evs) -> own_answer evs origin.
Proof. exact L_C100_own_partial. Qed.
Print Assumptions C100_own_partial.
(** C100: also if message objects are used again the answer belongs to a request sent from the same object. *)
Theorem C100_object_partial : forall n k sched s' evs origin, (Z.of_nat k <= 65535)%Z ->
  orderly early (new_post n (repeat 0%Z k)) sched ->
  prun (new_post n (repeat 0%Z k)) sched = (s', evs) -> answers_only evs origin -> same_object evs origin.
Proof. exact L_C100_object_partial. Qed.
Print Assumptions C100_object_partial.
(** C100: finding.  A message object that is posted again keeps its TID: a late answer to its first request
    is returned for the second. *)
Theorem C100_again_refuted : exists sched s' e0 e1 m,
  one_poster sched /\ orderly before_sleep (new_post 2 [0%Z]) sched /\
  prun (new_post 2 [0%Z]) sched = (s', e0 ++ EBegin 0 0 :: e1 ++ [EReturn 0 0 (Some m)]) /\
  (* the answer to the request of the first call *)
  nth_error e0 2 = Some (ESent 0 0 1) /\ answers_only (e0 ++ EBegin 0 0 :: e1 ++ [EReturn 0 0 (Some m)]) (fun _ => 2) /\
  (exists j, In (EArrive j m) e1) /\ ~ own_answer (e0 ++ EBegin 0 0 :: e1 ++ [EReturn 0 0 (Some m)]) (fun _ => 2).
Proof. exact L_C100_again_refuted. Qed.
Print Assumptions C100_again_refuted.
(** C100: finding.  An announcement whose TID, counted by its sender, is that of the request is returned as
    the answer. *)
Theorem C100_inf_refuted : forall m, m_ESV m = 0x73%Z -> m_TID m = 1%Z -> exists sched s' evs, one_poster sched /\
  prun (new_post 2 [0%Z]) sched = (s', evs) /\ In (ESent 0 0 1) evs /\ In (EReturn 0 0 (Some m)) evs.
Proof. exact L_C100_inf_refuted. Qed.
Print Assumptions C100_inf_refuted.
Theorem C100_ex : exists evs, snd (prun (new_post 2 [0%Z; 0%Z]) own_sched) = evs /\ orderly early (new_post 2 [0%Z; 0%Z]) own_sched /\
  NoDup (posts evs) /\ answers_only evs (fun a => match a with 8 => 2 | _ => 7 end) /\
  evs = [EBegin 0 0; ETid 0 0 1; ESent 0 0 1; ETimeout 0 0; EReturn 0 0 None;
         EBegin 0 1; ETid 0 1 2; ESent 0 1 2; EArrive 1 (rsp 1); EArrive 1 (rsp 2); EReturn 0 1 (Some (rsp 2))].
Proof. exact L_C100_ex. Qed.
Print Assumptions C100_ex.
