(** Property C106: what happens to nodes that the program no longer refers to. *)
From Verif Require Import PyBase GcM SpecGc GcP.
Local Open Scope nat_scope.

Theorem C106_safe : forall es w n, gruns gempty es w -> reach w (TNode n) ->
  ~ In n (gw_fin w) /\ forall by_ ts w', gstep w (ECollect by_ ts) w' ->
  ~ In n (gw_fin w') /\ gw_held w' = gw_held w /\ servers_of w' n = servers_of w n /\ forall s, In s (servers_of w n) -> srv w' s = srv w s.
Proof. exact L_C106_safe. Qed.
Print Assumptions C106_safe.
(** Finding: a started node is never finalised while one of its threads runs. *)
Theorem C106_kept_refuted : forall es w0 n ok w, gruns gempty es w0 -> gstep w0 (EStart n ok) w -> forallb (fun b => b) ok = true ->
  length (servers_of w n) = length ok /\ forall s, In s (servers_of w n) -> forall es' w', gruns w es' w' ->
  Forall (untouched n) es' -> ~ In (EEnd s) es' -> works w' s /\ In n (gs_obs (srv w' s)) /\ In s (servers_of w' n) /\ ~ In n (gw_fin w').
Proof. exact L_C106_kept_refuted. Qed.
Print Assumptions C106_kept_refuted.
Theorem C106_freed_partial : forall es w n, gruns gempty es w -> n < length (gw_nodes w) -> ~ In n (gw_fin w) -> ~ reach w (TNode n) ->
  (exists w', gstep w (ECollect None [TNode n]) w') /\
  forall by_ ts w', gstep w (ECollect by_ ts) w' -> In (TNode n) ts -> (forall b, by_ = Some b -> ~ In b (servers_of w n)) ->
  In n (gw_fin w') /\ forall s, In s (servers_of w n) -> closed w' s.
Proof. exact L_C106_freed_partial. Qed.
Print Assumptions C106_freed_partial.
(** Finding: a finaliser that runs in a thread of the node itself does not stop the servers after it. *)
Theorem C106_own_refuted : forall es w n l1 b l2 w' s, gruns gempty es w -> servers_of w n = l1 ++ b :: l2 -> gs_open (srv w b) = true -> ~ In b l1 ->
  gstep w (ECollect (Some b) [TNode n]) w' -> In s l2 -> s <> b -> ~ In s l1 -> works w s ->
  In n (gw_fin w') /\ forall es' w'', gruns w' es' w'' -> ~ In (EEnd s) es' -> works w'' s.
Proof. exact L_C106_own_refuted. Qed.
Print Assumptions C106_own_refuted.
Theorem C106_failed : forall es w0 n k r w, gruns gempty es w0 -> gstep w0 (EStart n (repeat true k ++ false :: r)) w ->
  length (servers_of w n) = k /\ (forall s, In s (servers_of w n) -> works w s /\ gs_obs (srv w s) = []) /\
  (exists s w', gs_open (srv w s) = true /\ gs_run (srv w s) = false /\ (forall m, ~ In s (servers_of w m)) /\
     ~ reach w (TSrv s) /\ gstep w (ECollect None [TSrv s]) w' /\ closed w' s) /\
  ((forall s, ~ In n (gs_obs (srv w0 s))) -> forall w', gstep w (EDrop n) w' -> ~ reach w' (TNode n)).
Proof. exact L_C106_failed. Qed.
Print Assumptions C106_failed.

(** A node with an interface is started and dropped; its threads end; it is collected. *)
Example C106_ex : exists w1 w2 w3 w4,
  gruns gempty [ENew; EStart 0 [true; true]; EDrop 0] w1 /\ reach w1 (TNode 0) /\ gw_held w1 = [] /\ works w1 0 /\ works w1 1 /\
  gruns w1 [EEnd 0; EEnd 1] w2 /\ gs_open (srv w2 0) = true /\ gstep w2 (ECollect None [TNode 0; TSrv 0; TSrv 1]) w3 /\ closed w3 0 /\ closed w3 1 /\
  gruns gempty [ENew; EStart 0 [true; true; false]; EDrop 0; ECollect (Some 0) [TNode 0]] w4 /\ gs_open (srv w4 0) = false /\ works w4 1.
Proof.
  do 4 eexists. split.
  { eapply gruns_cons; [apply g_new|]. eapply gruns_cons; [apply g_start; left; reflexivity|]. eapply gruns_cons; [apply g_drop|]. apply gruns_nil. }
  split; [apply (reach_obs _ 0); [apply reach_run; reflexivity|left; reflexivity]|]. split; [reflexivity|]. split; [split; reflexivity|]. split; [split; reflexivity|].
  split.
  { eapply gruns_cons; [apply g_end; reflexivity|]. eapply gruns_cons; [apply g_end; reflexivity|]. apply gruns_nil. }
  split; [reflexivity|]. split.
  { apply g_collect.
    - intros t _ H. induction H as [n H|s H| |].
      + destruct H.
      + destruct s as [|[|[|s]]]; discriminate H.
      + assumption.
      + assumption.
    - intros n [E|[E|[E|[]]]]; [|discriminate|discriminate]. assert (0 = n) as <- by congruence. split; [repeat constructor|intros []].
    - discriminate. }
  split; [split; reflexivity|]. split; [split; reflexivity|]. split.
  { eapply gruns_cons; [apply g_new|]. eapply gruns_cons; [apply g_start; left; reflexivity|]. eapply gruns_cons; [apply g_drop|]. eapply gruns_cons; [|apply gruns_nil]. apply g_collect.
    - intros t [<-|[]] H. inversion H as [n J| | |s n J K]; subst; [destruct J|]. destruct s as [|[|[|[|s]]]]; destruct K.
    - intros n [E|[]]. assert (0 = n) as <- by congruence. split; [repeat constructor|intros []].
    - intros b E. assert (0 = b) as <- by congruence. reflexivity. }
  split; [reflexivity|]. split; reflexivity.
Qed.
