(** Finalisers: which local nodes and servers are collected, and what their __del__ does
    (uecho/local_node.py:38-39, uecho/frame/manager.py:32-33 and 81-115, uecho/frame/server.py:40-41 and 94-110,
    uecho/controller.py:93-95).

    A node is taken together with its manager, which nothing else refers to.  References:
    a node to the servers in its manager's list, a server to its observers, a running thread to its server
    (threading keeps running threads; Server is a Thread), the program to the nodes it [holds] (directly, or through an
    object's [node] or a found node's [controller]). *)
From Verif Require Import PyBase.
Local Open Scope nat_scope.

Record gsrv : Type := mkgs { gs_open : bool; gs_run : bool; gs_obs : list nat }.
(** [gw_nodes]: the servers of each node; [gw_fin]: nodes that have been finalised. *)
Record gworld : Type := mkgw { gw_nodes : list (list nat); gw_srvs : list gsrv; gw_held : list nat; gw_fin : list nat }.
Inductive thing : Type := TNode (n : nat) | TSrv (s : nat).

Definition gsrv0 : gsrv := mkgs false false [].
Definition srv (w : gworld) (s : nat) : gsrv := nth s (gw_srvs w) gsrv0.
Definition servers_of (w : gworld) (n : nat) : list nat := nth n (gw_nodes w) [].
Fixpoint gset {A} (k : nat) (x : A) (l : list A) : list A :=
  match l, k with
  | [], _ => []
  | _ :: r, O => x :: r
  | y :: r, S k => y :: gset k x r
  end.
Definition set_srv (s : nat) (v : gsrv) (w : gworld) : gworld := mkgw (gw_nodes w) (gset s v (gw_srvs w)) (gw_held w) (gw_fin w).
Definition set_servers (n : nat) (l : list nat) (w : gworld) : gworld := mkgw (gset n l (gw_nodes w)) (gw_srvs w) (gw_held w) (gw_fin w).

(** What the collector sees. *)
Inductive reach (w : gworld) : thing -> Prop :=
| reach_held n : In n (gw_held w) -> reach w (TNode n)
| reach_run s : gs_run (srv w s) = true -> reach w (TSrv s)
| reach_srv n s : reach w (TNode n) -> In s (servers_of w n) -> reach w (TSrv s)
| reach_obs s n : reach w (TSrv s) -> In n (gs_obs (srv w s)) -> reach w (TNode n).

(** Server.stop (server.py:100-110) in the thread of server [by] (None: another thread); the
    result says whether join raised, because a thread cannot wait for itself. *)
Definition srv_stop (by_ : option nat) (s : nat) (w : gworld) : gworld * bool :=
  let v := srv w s in
  if gs_open v then
    if match by_ with Some b => b =? s | None => false end
    then (set_srv s (mkgs false (gs_run v) (gs_obs v)) w, true)
    else (set_srv s (mkgs false false (gs_obs v)) w, false)
  else (w, false).
(** Manager.stop (manager.py:111-115). *)
Fixpoint stop_each (by_ : option nat) (l : list nat) (w : gworld) : gworld * bool :=
  match l with
  | [] => (w, false)
  | s :: r => let '(w1, e) := srv_stop by_ s w in if e then (w1, true) else stop_each by_ r w1
  end.
Definition node_stop (by_ : option nat) (n : nat) (w : gworld) : gworld :=
  let '(w1, e) := stop_each by_ (servers_of w n) w in
  if e then w1 else set_servers n [] w1.
(** Manager.start (manager.py:81-109): [ok] says for each server whether bind succeeds.  A server whose
    bind raises has a socket and no thread, and is in no list. *)
Fixpoint start_each (n : nat) (ok : list bool) (w : gworld) : gworld * bool :=
  match ok with
  | [] => (w, true)
  | true :: r =>
      start_each n r (set_servers n (servers_of w n ++ [length (gw_srvs w)])
                        (mkgw (gw_nodes w) (gw_srvs w ++ [mkgs true true []]) (gw_held w) (gw_fin w)))
  | false :: _ => (mkgw (gw_nodes w) (gw_srvs w ++ [mkgs true false []]) (gw_held w) (gw_fin w), false)
  end.
(** Manager.add_observer (manager.py:55-57) and Subject.add_observer (subject.py:29-45). *)
Definition observe (x s : nat) (w : gworld) : gworld :=
  let v := srv w s in
  if existsb (Nat.eqb x) (gs_obs v) then w else set_srv s (mkgs (gs_open v) (gs_run v) (gs_obs v ++ [x])) w.
Definition watch (n x : nat) (w : gworld) : gworld := fold_left (fun w s => observe x s w) (servers_of w n) w.
(** LocalNode.start (local_node.py:67-72). *)
Definition node_start (n : nat) (ok : list bool) (w : gworld) : gworld :=
  let '(w1, good) := start_each n ok (node_stop None n w) in
  if good then watch n n w1 else w1.
(** The finalisers: LocalNode.__del__ and Manager.__del__, Server.__del__; exceptions in them are ignored. *)
Definition finalise (by_ : option nat) (t : thing) (w : gworld) : gworld :=
  match t with
  | TNode n => let w1 := node_stop by_ n w in mkgw (gw_nodes w1) (gw_srvs w1) (gw_held w1) (n :: gw_fin w1)
  | TSrv s => fst (srv_stop by_ s w)
  end.
Definition finalise_all (by_ : option nat) (ts : list thing) (w : gworld) : gworld :=
  fold_left (fun w t => finalise by_ t w) ts w.

Inductive gev : Type :=
| ENew
| EHold (n : nat)
| EDrop (n : nat)
| EStart (n : nat) (ok : list bool)
| EStop (n : nat)
| EWatch (n x : nat)
| EEnd (s : nat)
| ECollect (by_ : option nat) (ts : list thing).
Inductive gstep (w : gworld) : gev -> gworld -> Prop :=
| g_new : gstep w ENew (mkgw (gw_nodes w ++ [[]]) (gw_srvs w) (length (gw_nodes w) :: gw_held w) (gw_fin w))
| g_hold n : reach w (TNode n) -> gstep w (EHold n) (mkgw (gw_nodes w) (gw_srvs w) (n :: gw_held w) (gw_fin w))
| g_drop n : gstep w (EDrop n) (mkgw (gw_nodes w) (gw_srvs w) (remove Nat.eq_dec n (gw_held w)) (gw_fin w))
| g_start n ok : In n (gw_held w) -> gstep w (EStart n ok) (node_start n ok w)
| g_stop n : In n (gw_held w) -> gstep w (EStop n) (node_stop None n w)
| g_watch n x : In n (gw_held w) -> In x (gw_held w) -> gstep w (EWatch n x) (watch n x w)
| g_end s : gs_run (srv w s) = true -> gstep w (EEnd s) (set_srv s (mkgs (gs_open (srv w s)) false (gs_obs (srv w s))) w)
| g_collect by_ ts : (forall t, In t ts -> ~ reach w t) -> (forall n, In (TNode n) ts -> n < length (gw_nodes w) /\ ~ In n (gw_fin w)) ->
    (forall b, by_ = Some b -> gs_run (srv w b) = true) -> gstep w (ECollect by_ ts) (finalise_all by_ ts w).
Inductive gruns : gworld -> list gev -> gworld -> Prop :=
| gruns_nil w : gruns w [] w
| gruns_cons w e w1 es w2 : gstep w e w1 -> gruns w1 es w2 -> gruns w (e :: es) w2.
Definition gempty : gworld := mkgw [] [] [] [].
