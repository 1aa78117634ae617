(** Properties of concurrent sending and of post_message: C39, C50 (races), C51-C54, C66. *)
From Verif Require Import PyBase EsvM MsgM NodeM TidM SpecTid TidP PostM SpecPost PostP RaceP.

(** C39: finding.  Two threads can get the same identifier, and identifiers can exceed any bound;
    right if calls do not overlap. *)
Theorem C39_duplicate_refuted : forall t, 0 <= t < 65535 -> exists sched s' evs,
  trun (threads 2 t) sched = (s', evs) /\ tids evs = [t + 1; t + 1].
Proof. exact L_C39_duplicate_refuted. Qed.
Print Assumptions C39_duplicate_refuted.
Theorem C39_range_refuted : forall t N, 0 <= t <= 65535 -> exists sched s' evs u,
  trun (threads 2 t) sched = (s', evs) /\ In u (tids evs) /\ N < u.
Proof. exact L_C39_range_refuted. Qed.
Print Assumptions C39_range_refuted.
Theorem C39_range_partial : forall n t sched s' evs, 0 <= t -> trun (threads n t) sched = (s', evs) ->
  Forall (fun u => 1 <= u) (tids evs) /\ (t + zlen (begun evs) <= 65535 -> Forall (fun u => 1 <= u <= 65535) (tids evs)).
Proof. exact L_C39_range_partial. Qed.
Print Assumptions C39_range_partial.
Theorem C39_serial_partial : forall n t sched s' evs, 0 <= t <= 65535 -> one_at_a_time (threads n t) sched ->
  trun (threads n t) sched = (s', evs) ->
  (forall u, In u (tids evs) -> 1 <= u <= 65535) /\
  (forall i j u v, (i < j)%nat -> Z.of_nat j - Z.of_nat i < 65535 ->
     nth_error (tids evs) i = Some u -> nth_error (tids evs) j = Some v -> u <> v).
Proof. exact L_C39_serial_partial. Qed.
Print Assumptions C39_serial_partial.
Theorem C39_sequential : forall g, exists k, trun (threads 1 (g_tid g)) (repeat 0%nat k) =
  (threads 1 (g_tid (fst (next_TID g))), [TBegin 0; TRet 0 (snd (next_TID g))]).
Proof. exact L_C39_sequential. Qed.
Print Assumptions C39_sequential.
Example C39_ex : let '(_, evs) := trun (threads 2 65534) [0; 0; 0; 0; 1; 1; 1; 1; 1; 0; 0; 0; 0]%nat in tids evs = [65535; 1; 2].
Proof. vm_compute. reflexivity. Qed.
Example C39_ex_serial : one_at_a_time (threads 2 65534) [0; 0; 0; 0; 1; 1; 1; 1; 1; 0; 0; 0; 0]%nat.
Proof.
  cbn. repeat match goal with |- _ /\ _ => split | |- True => exact I | |- alone _ _ => intros j p J E; cbn in E; do 3 (destruct j as [|j]; [cbn in E; congruence|]); destruct j; discriminate E end.
Qed.
Example C39_ex_overlap : let '(_, evs) := trun (threads 2 7) [0; 1; 0; 0; 0; 1; 1; 1]%nat in tids evs = [8; 8].
Proof. vm_compute. reflexivity. Qed.

(** The schedule of the ordinary case: a call sleeps, another thread receives the response to it
    after an unrelated one, the call returns the response. *)
Definition ex_sched : list (nat * act) :=
  to_sleep 0 0 ++ handle 1 (rsp 7) ++ handle 1 (rsp 1) ++ st 0 4 ++ to_sleep 0 1 ++ st 0 5.
Ltac orderly_tac := apply orderlyb_ok; vm_compute; reflexivity.
Example Post_ex_orderly : orderly early (new_post 2 [0; 0]) ex_sched /\ orderly before_sleep (new_post 2 [0; 0]) ex_sched /\ one_poster ex_sched.
Proof.
  split; [|split].
  - orderly_tac.
  - orderly_tac.
  - intros i a I. cbn in I. repeat (destruct I as [E|I]; [injection E as <- <-; auto; discriminate|]). contradiction.
Qed.

(** C50: finding.  A receiver whose hand-over overlaps the start of a new call raises. *)
Theorem C50_race_refuted : exists sched s' evs m, one_poster sched /\ (forall i, ~ In (i, ARaise) sched) /\
  prun (new_post 2 [0; 0]) sched = (s', evs) /\ response m /\ In (EArrive 1 m) evs /\ In (ERaise 1) evs.
Proof. exact L_C50_race_refuted. Qed.
Print Assumptions C50_race_refuted.
Theorem C50_orderly_partial : forall n l sched s' evs, orderly (fun _ => false) (new_post n l) sched -> (forall i, ~ In (i, ARaise) sched) ->
  prun (new_post n l) sched = (s', evs) -> forall i, ~ In (ERaise i) evs.
Proof. exact L_C50_orderly_partial. Qed.
Print Assumptions C50_orderly_partial.

(** C51: finding.  A late response is returned by the next call, a response with TID 0 that comes
    before the request has its TID is taken, and so is one that arrived before the call. *)
Theorem C51_orderly_partial : forall n l sched s' evs, one_poster sched -> orderly early (new_post n l) sched ->
  prun (new_post n l) sched = (s', evs) -> returns_right evs.
Proof. exact L_C51_orderly_partial. Qed.
Print Assumptions C51_orderly_partial.
Theorem C51_any_partial : forall n l sched s' evs e1 i q m e2, prun (new_post n l) sched = (s', evs) ->
  evs = e1 ++ EReturn i q (Some m) :: e2 ->
  response m /\ (exists j, In (EArrive j m) e1) /\
  exists i' q', In (EBegin i' q') e1 /\ (m_TID m = nth q' l 0 \/ exists j, In (ETid j q' (m_TID m)) e1).
Proof. exact L_C51_any_partial. Qed.
Print Assumptions C51_any_partial.
Theorem C51_late_refuted : exists sched s' evs m, one_poster sched /\ prun (new_post 2 [0; 0]) sched = (s', evs) /\
  In (ESent 0 1 2) evs /\ In (EReturn 0 1 (Some m)) evs /\ m_TID m = 1.
Proof. exact L_C51_late_refuted. Qed.
Print Assumptions C51_late_refuted.
Theorem C51_early_refuted : exists sched s' evs m, one_poster sched /\ prun (new_post 2 [0]) sched = (s', evs) /\
  In (ESent 0 0 1) evs /\ In (EReturn 0 0 (Some m)) evs /\ m_TID m = 0.
Proof. exact L_C51_early_refuted. Qed.
Print Assumptions C51_early_refuted.
Theorem C51_before_refuted : exists sched s' e1 e2 m, one_poster sched /\
  prun (new_post 2 [5]) sched = (s', EArrive 1 m :: EBegin 0 0 :: e1 ++ EReturn 0 0 (Some m) :: e2) /\ forall j, ~ In (EArrive j m) e1.
Proof. exact L_C51_before_refuted. Qed.
Print Assumptions C51_before_refuted.
Example C51_ex : snd (prun (new_post 2 [0; 0]) ex_sched) =
  [EBegin 0 0; ETid 0 0 1; ESent 0 0 1; EArrive 1 (rsp 7); EArrive 1 (rsp 1); EReturn 0 0 (Some (rsp 1));
   EBegin 0 1; ETid 0 1 2; ESent 0 1 2; ETimeout 0 1; EReturn 0 1 None].
Proof. vm_compute. reflexivity. Qed.

(** C52: finding.  Neither the sender nor the objects are looked at. *)
Theorem C52_sender_refuted : forall m, response m -> m_TID m = 1 -> exists sched s' evs, one_poster sched /\
  prun (new_post 2 [0]) sched = (s', evs) /\ In (ESent 0 0 1) evs /\ In (EReturn 0 0 (Some m)) evs.
Proof. exact L_C52_sender_refuted. Qed.
Print Assumptions C52_sender_refuted.
Theorem C52_sender_partial : forall (from_dest : msg -> Prop) n l sched s' evs, orderly early (new_post n l) sched ->
  prun (new_post n l) sched = (s', evs) ->
  forall e1 i q m e2, evs = e1 ++ EReturn i q (Some m) :: e2 ->
  (* only the destination answers during the call with the TID of the request *)
  (forall b j m', last_call e1 i q b -> In (EArrive j m') b -> response m' -> In (ESent i q (m_TID m')) b -> from_dest m') ->
  from_dest m.
Proof. exact L_C52_sender_partial. Qed.
Print Assumptions C52_sender_partial.

(** C53: finding.  Overlapping calls return each other's responses. *)
Theorem C53_mixed_refuted : exists sched s' evs m, prun (new_post 3 [0; 0]) sched = (s', evs) /\
  In (ESent 0 0 1) evs /\ In (ESent 1 1 2) evs /\ In (EReturn 0 0 (Some m)) evs /\ In (EReturn 1 1 (Some m)) evs /\ m_TID m = 2.
Proof. exact L_C53_mixed_refuted. Qed.
Print Assumptions C53_mixed_refuted.
Theorem C53_orderly_partial : forall n l sched s' evs, orderly early (new_post n l) sched ->
  prun (new_post n l) sched = (s', evs) -> returns_right evs.
Proof. exact L_C53_orderly_partial. Qed.
Print Assumptions C53_orderly_partial.
Example C53_ex : let s := to_sleep 0 0 ++ handle 2 (rsp 1) ++ st 0 4 ++ to_sleep 1 1 ++ handle 2 (rsp 2) ++ st 1 4 in
  orderly early (new_post 3 [0; 0]) s /\
  snd (prun (new_post 3 [0; 0]) s) =
  [EBegin 0 0; ETid 0 0 1; ESent 0 0 1; EArrive 2 (rsp 1); EReturn 0 0 (Some (rsp 1));
   EBegin 1 1; ETid 1 1 2; ESent 1 1 2; EArrive 2 (rsp 2); EReturn 1 1 (Some (rsp 2))].
Proof. split; [orderly_tac|vm_compute; reflexivity]. Qed.

(** C54: finding.  A response that comes between sending and sleeping does not wake the caller. *)
Theorem C54_lost_refuted : exists sched s' evs m, one_poster sched /\ prun (new_post 2 [0]) sched = (s', evs) /\
  In (ESent 0 0 1) evs /\ In (EArrive 1 m) evs /\ response m /\ m_TID m = 1 /\
  forall sched2 s2 evs2 e1 i q r e2, one_poster sched2 -> prun s' sched2 = (s2, evs2) ->
  evs2 = e1 ++ EReturn i q r :: e2 -> In (ETimeout 0 0) e1.
Proof. exact L_C54_lost_refuted. Qed.
Print Assumptions C54_lost_refuted.
Theorem C54_prompt_partial : forall n l sched s' evs i q b, orderly before_sleep (new_post n l) sched ->
  prun (new_post n l) sched = (s', evs) ->
  (* the caller sleeps and no other thread is in the middle of handling a message *)
  nth_error (p_pcs s') i = Some (PSleep q) -> others_idle s' i -> last_call evs i q b ->
  forall j m, In (EArrive j m) b -> response m -> In (ESent i q (m_TID m)) b -> In (ERaise j) b.
Proof. exact L_C54_prompt_partial. Qed.
Print Assumptions C54_prompt_partial.
Example C54_ex : let s := to_sleep 0 0 ++ handle 1 (rsp 1) in
  orderly before_sleep (new_post 2 [0]) s /\ nth_error (p_pcs (fst (prun (new_post 2 [0]) s))) 0 = Some (PWake 0 true).
Proof. split; [orderly_tac|vm_compute; reflexivity]. Qed.

(** C66: the lock excludes, and no schedule leads into a deadlock. *)
Theorem C66_lock : forall n l sched s' evs, prun (new_post n l) sched = (s', evs) ->
  forall i j p p', nth_error (p_pcs s') i = Some p -> nth_error (p_pcs s') j = Some p' -> in_lock p = true -> in_lock p' = true -> i = j.
Proof. exact L_C66_lock. Qed.
Print Assumptions C66_lock.
Theorem C66_no_deadlock : forall n l sched s' evs, prun (new_post n l) sched = (s', evs) -> exists sched2 s2 evs2,
  (forall i a, In (i, a) sched2 -> a = AStep \/ a = ASend true) /\ prun s' sched2 = (s2, evs2) /\
  forall j p, nth_error (p_pcs s2) j = Some p -> p = PIdle.
Proof. exact L_C66_no_deadlock. Qed.
Print Assumptions C66_no_deadlock.
Theorem C66_bounded : forall n l sched s' evs sched2, prun (new_post n l) sched = (s', evs) ->
  (forall i a, In (i, a) sched2 -> match a with APost _ | ARecv _ => False | _ => True end) ->
  (steps s' sched2 <= 12 * n)%nat.
Proof. exact L_C66_bounded. Qed.
Print Assumptions C66_bounded.
Example C66_ex : let '(s, _) := prun (new_post 3 [0; 0]) (to_sleep 0 0 ++ to_sleep 1 1 ++ (2%nat, ARecv (rsp 2)) :: st 2 10) in
  p_pcs s = [PSleep 0; PSleep 1; RNotify (rsp 2)] /\ p_lock s = Some 2%nat /\ pstep s 0 (APost 0) = None /\
  steps s (st 2 2 ++ st 0 4 ++ st 1 9) = 11%nat.
Proof. vm_compute. repeat split; reflexivity. Qed.
