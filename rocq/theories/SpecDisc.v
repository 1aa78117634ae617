(** Specification for a search on a network of several nodes (C79). *)
From Verif Require Import PyBase MsgM PropM ObjM DbM SpecWire SpecObj SpecReq NodeM LocalM CtrlM SpecNode SpecProf SpecLocal SpecSrv SpecCtrl SpecEnd SpecLife SpecSelf.

(** A node at its place on the network: its operating system, address, state and events.  What it
    sends counts from the event with number [t_from]. *)
Record site := mksite { t_os : os; t_addr : addr; t_node : lnode; t_tr : trace; t_from : nat }.
(** The datagrams a node has sent to [a]. *)
Definition mailed (a : addr) (d : site) : list (list Z) := reach a (skipn (t_from d) (t_tr d)).
(** Datagram [b] from [a] arrives at server [j] of a node. *)
Definition hears {PS : PySet} (d : site) (j : nat) (b : list Z) (a : addr) : site :=
  let '(s, tr) := deliver (t_os d) (t_tr d) (t_node d) j (b, a) in mksite (t_os d) (t_addr d) s tr (t_from d).

(** A controller, the datagrams of its search, and the other nodes. *)
Record area := mkarea { a_ctl : site; a_mail : list (list Z); a_devs : list site }.
(** The network delivers a datagram: number [i] of the search to server [j] of node [k], or number
    [i] of those that node [k] has sent to the controller to server [j] of the controller.  Nothing
    is said about which are delivered, in which order and how often. *)
Inductive move := GoSearch (k j i : nat) | GoAnswer (k j i : nat).
Definition area_step {PS : PySet} (x : area) (e : move) : area :=
  match e with
  | GoSearch k j i =>
      match nth_error (a_devs x) k, nth_error (a_mail x) i with
      | Some d, Some b => mkarea (a_ctl x) (a_mail x) (upd (a_devs x) k (hears d j b (t_addr (a_ctl x))))
      | _, _ => x
      end
  | GoAnswer k j i =>
      match nth_error (a_devs x) k with
      | Some d => match nth_error (mailed (t_addr (a_ctl x)) d) i with
                  | Some b => mkarea (hears (a_ctl x) j b (t_addr d)) (a_mail x) (a_devs x)
                  | None => x
                  end
      | None => x
      end
  end.
Definition area_run {PS : PySet} (sched : list move) (x : area) : area := fold_left area_step sched x.

(** The number of searches that node [k] with [n] servers has heard, of a search of [mail] datagrams. *)
Definition searches (mail n k : nat) (sched : list move) : nat :=
  length (filter (fun e => match e with GoSearch k' j i => (k' =? k)%nat && (j <? n)%nat && (i <? mail)%nat | _ => false end) sched).
Definition servers_of (s : lnode) : nat := length (g_servers (ln_mgr s)).
(** One of the answers of node [k] has arrived at one of the [nc] servers of the controller. *)
Definition answered (mail n nc k : nat) (sched : list move) : Prop :=
  exists before j i after, sched = before ++ GoAnswer k j i :: after /\ (j < nc)%nat /\ (i < searches mail n k before)%nat.

(** All servers of a node run and report to the node only, and it can send. *)
Definition listens (s : lnode) : Prop :=
  open_ifs s <> [] /\ forall j v, server_at s j = Some v -> s_alive v = true /\ s_obs v = [ONode].
(** A node that has been created and after any life hosts the devices [l], and that works. *)
Definition hosts {PS : PySet} (d : site) (l : list Z) : Prop :=
  (exists c r s0 w added, new_local c r = (s0, Ok tt) /\ turns w (s0, []) added (t_node d, t_tr d) /\ l = device_codes (firsts Z.eqb added)) /\
  Forall (fun k => 0 <= k < 2 ^ 24) l /\ listens (t_node d) /\ quiet (t_os d) /\ reliable (t_os d) /\ t_from d = length (t_tr d).
(** A found node shows address and devices of a node. *)
Definition depicts (nd : node) (a : addr) (l : list Z) : Prop :=
  n_addr nd = Some a /\ map o_code (node_objects nd) = 0x0EF001 :: l.
