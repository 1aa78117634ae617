(** Properties C86 and C87: a node is stopped while its threads run. *)
From Verif Require Import PyBase TidM StopM SpecStop StopP LateP.
Import StopM.
Local Open Scope nat_scope.

(** C86: stop() called by one thread of the user, no callback calling it. *)
Theorem C86_stopped_partial : forall cb s l r, polite cb -> started s -> one_stop s ->
  user_done (qrun cb s l) 0 r ->
  r = SVal true /\ q_cleared (qrun cb s l) = true /\
  forall l', all_ended (qrun cb s (l ++ l')) /\ q_calls (qrun cb s (l ++ l')) = q_calls (qrun cb s l).
Proof. exact L_C86_stopped_partial. Qed.
Print Assumptions C86_stopped_partial.
Theorem C86_ends_partial : forall cb s ls, polite cb -> started s -> one_stop s ->
  let n := length (q_socks s) in
  Forall (round n (length (q_users s))) ls -> n * (2 * n + 13) + 2 <= length ls ->
  user_done (qrun cb s (concat ls)) 0 (SVal true).
Proof. exact L_C86_ends_partial. Qed.
Print Assumptions C86_ends_partial.
Theorem C86_last : forall cb s i v r, nth_error (q_socks s) i = Some v -> k_ref v = false -> nth_error (q_recv s) i = Some r ->
  forall l, length (calls_of i (q_calls (qrun cb s l))) <= length (calls_of i (q_calls s)) + 1.
Proof. exact L_C86_last. Qed.
Print Assumptions C86_last.
(** C86: findings.  A callback that stops the node stops the servers up to its own; two callbacks
    that stop it wait for each other forever; of two threads of the user one gets AttributeError. *)
Theorem C86_callback_refuted : forall cb d v rest rs us cs sent, live v -> cb 0 d = DStop -> exists l,
  let s := mkqst (v :: rest) false (RWait :: rs) us cs sent in
  let s' := qrun cb s l in
  q_calls s' = cs ++ [(0, d)] /\ nth_error (q_recv s') 0 = Some REnd /\ q_cleared s' = false /\
  forall i, nth_error (q_socks s') (S i) = nth_error rest i /\ nth_error (q_recv s') (S i) = nth_error rs i.
Proof. exact L_C86_callback_refuted. Qed.
Print Assumptions C86_callback_refuted.
Theorem C86_deadlock_refuted : forall cb d0 d1 v0 v1 rest rs us cs sent, live v0 -> live v1 -> cb 0 d0 = DStop -> cb 1 d1 = DStop ->
  exists l, forall l',
  let s := mkqst (v0 :: v1 :: rest) false (RWait :: RWait :: rs) us cs sent in
  let s' := qrun cb s (l ++ l') in
  nth_error (q_recv s') 0 = Some (RIn (TStop 1 PJoin)) /\ nth_error (q_recv s') 1 = Some (RIn (TStop 0 PJoin)).
Proof. exact L_C86_deadlock_refuted. Qed.
Print Assumptions C86_deadlock_refuted.
Theorem C86_two_refuted : forall cb v rest rs us cs sent, live v -> exists l,
  user_done (qrun cb (mkqst (v :: rest) false rs (TStopBegin :: TStopBegin :: us) cs sent) l) 1 SAttr.
Proof. exact L_C86_two_refuted. Qed.
Print Assumptions C86_two_refuted.

(** A node on one interface: the unicast and the multicast server.  Datagram 1 is answered, datagram
    2 is announced, a callback for datagram 3 raises, for datagram 4 it stops the node. *)
Definition wx_cb (i d : nat) : deed := match d with 1 => DSend false | 2 => DSend true | 3 => DRaise | 4 => DStop | _ => DNothing end.
Definition wx_polite (i d : nat) : deed := match d with 4 => DNothing | _ => wx_cb i d end.
Definition wx_live (uni : bool) : sk := mksk uni true false false.
Definition wx_node (us : list tpc) : qst := mkqst [wx_live true; wx_live false] false [RWait; RWait] us [] [].
Definition wx_round (d : option nat) : list turn := [Recv 1 d; User 1; Recv 0 d; User 0].
Example C86_ex_hyps : polite wx_polite /\ started (wx_node [TStopBegin; TSendBegin true]) /\ one_stop (wx_node [TStopBegin; TSendBegin true]) /\
  forall d, round 2 2 (wx_round d).
Proof.
  split; [intros i d; unfold wx_polite, wx_cb; destruct d as [|[|[|[|[|d]]]]]; discriminate|]. split.
  - split; [reflexivity|]. split; [reflexivity|]. intros i v r. destruct i as [|[|i]]; cbn; try (now destruct i).
    + intros [= <-] [= <-]. split; [exact I|left; repeat split].
    + intros [= <-] [= <-]. split; [exact I|left; repeat split].
  - split; [exists [TSendBegin true]; split; [reflexivity|repeat constructor; exists true; reflexivity]|].
    intros d. split.
    + intros u Hu. destruct u as [|[|u]]; [right; right; right; left; reflexivity|right; left; reflexivity|lia].
    + intros i Hi. destruct i as [|[|i]]; [exists d; right; right; left; reflexivity|exists d; left; reflexivity|lia].
Qed.
(** The stop begins while both servers have got datagram 1 and another thread announces a message:
    the announcement is sent, the answers of the two callbacks find the socket closed. *)
Example C86_ex :
  let s := qrun wx_polite (wx_node [TStopBegin; TSendBegin true]) ([Recv 0 (Some 1); Recv 1 (Some 1)] ++ concat (repeat (wx_round (Some 1)) 20)) in
  user_done s 0 (SVal true) /\ q_cleared s = true /\ q_recv s = [REnd; REnd] /\ q_calls s = [(1, 1); (0, 1)] /\ q_sent s = [0] /\
  user_done s 1 (SVal true).
Proof. vm_compute. repeat split. Qed.
(** A callback stops the node: the multicast server goes on, and the node still has its servers. *)
Example C86_ex_callback :
  let s := qrun wx_cb (wx_node []) (Recv 0 (Some 4) :: repeat (Recv 0 None) 8 ++ [Recv 1 (Some 0); Recv 1 None]) in
  q_recv s = [REnd; RCheck] /\ q_cleared s = false /\ q_calls s = [(0, 4); (1, 0)] /\ nth_error (q_socks s) 1 = Some (wx_live false).
Proof. vm_compute. repeat split. Qed.

(** C87: messages sent while the node is stopped. *)
Theorem C87_silent_partial : forall cb s l r, polite cb -> started s -> one_stop s ->
  user_done (qrun cb s l) 0 r -> forall l', q_sent (qrun cb s (l ++ l')) = q_sent (qrun cb s l).
Proof. exact L_C87_silent_partial. Qed.
Print Assumptions C87_silent_partial.
Theorem C87_values_partial : forall cb s l u r, polite cb -> started s -> Forall asks_send (q_users s) ->
  user_done (qrun cb s l) u r -> exists b, r = SVal b.
Proof. exact L_C87_values_partial. Qed.
Print Assumptions C87_values_partial.
(** C87: a send that begins after stop() has returned, and what a send that has returned has sent. *)
Theorem C87_late_partial : forall cb s l l' r u ann, polite cb -> started s -> one_stop s ->
  user_done (qrun cb s l) 0 r -> nth_error (q_users (qrun cb s l)) u = Some (TSendBegin ann) ->
  (forall r', user_done (qrun cb s (l ++ l')) u r' -> r' = SVal ann) /\ user_done (qrun cb s (l ++ [User u])) u (SVal ann).
Proof. exact L_C87_late_partial. Qed.
Print Assumptions C87_late_partial.
Theorem C87_sent : forall cb s u ann l, mute cb -> one_sender u ann s -> let s1 := qrun cb s l in
  in_order (q_socks s) (q_sent s1) /\
  (forall r, user_done s1 u r -> r <> SRun /\ (ann = true -> forall b, r = SVal b -> b = true)) /\
  (ann = false -> (user_done s1 u (SVal true) /\ length (q_sent s1) = 1) \/ (~ user_done s1 u (SVal true) /\ q_sent s1 = [])).
Proof. exact L_C87_sent. Qed.
Print Assumptions C87_sent.
Theorem C87_raise_refuted : forall cb ann v rest rs us cs sent, live v -> k_uni v = true ->
  let s := mkqst (v :: rest) false rs (TStopBegin :: TSendBegin ann :: us) cs sent in
  (exists l, user_done (qrun cb s l) 1 SAttr) /\ (exists l, user_done (qrun cb s l) 1 SOs).
Proof. exact L_C87_raise_refuted. Qed.
Print Assumptions C87_raise_refuted.
(** Nobody stops: a message announced and one sent on a node with two interfaces. *)
Example C87_ex :
  let n := mkqst [wx_live true; wx_live false; wx_live true; wx_live false] false [RWait; RWait; RWait; RWait] [TSendBegin true; TSendBegin false] [] [] in
  let s := qrun wx_polite n (repeat (User 0) 8 ++ repeat (User 1) 3) in
  user_done s 0 (SVal true) /\ user_done s 1 (SVal true) /\ q_sent s = [0; 2; 0].
Proof. vm_compute. repeat split. Qed.
Definition wx_quiet (_ _ : nat) : deed := DNothing.
(** The node is stopped before, during and after the sends; a send that raises has sent nothing. *)
Example C87_sent_ex :
  let n ann := wx_node [TStopBegin; TSendBegin ann] in
  let run ann l := let s := qrun wx_quiet (n ann) l in (nth_error (q_users s) 1, q_sent s) in
  let stop := repeat (User 0) 4 ++ repeat (Recv 0 None) 4 ++ repeat (User 0) 5 ++ repeat (Recv 1 None) 4 ++ repeat (User 0) 5 in
  one_sender 1 true (n true) /\ one_sender 1 false (n false) /\ mute wx_quiet /\ polite wx_quiet /\ started (n false) /\ one_stop (n false) /\
  user_done (qrun wx_quiet (n false) stop) 0 (SVal true) /\
  run true (stop ++ repeat (User 1) 5) = (Some (TDone (SVal true)), []) /\ run false (stop ++ repeat (User 1) 5) = (Some (TDone (SVal false)), []) /\
  run true (repeat (User 1) 5 ++ stop) = (Some (TDone (SVal true)), [0]) /\ run false (repeat (User 1) 5 ++ stop) = (Some (TDone (SVal true)), [0]) /\
  run false (repeat (User 1) 2 ++ stop ++ repeat (User 1) 5) = (Some (TDone SAttr), []).
Proof.
  cbv zeta. split; [|split]; try (split; [reflexivity|split; [intros [|[|[|j]]] t H N; cbn in H; congruence|split; [repeat constructor|reflexivity]]]).
  split; [discriminate|]. split; [discriminate|]. split; [split; [reflexivity|split; [reflexivity|]]; intros [|[|[|i]]] v r H1 H2; cbn in H1, H2; try discriminate; injection H1 as <-; injection H2 as <-; repeat split; left; repeat split|].
  split; [eexists; split; [reflexivity|repeat constructor; eexists; reflexivity]|]. vm_compute. repeat split.
Qed.
