(** Model of /repo/uecho/node.py, /repo/uecho/frame/*.py and /repo/uecho/protocol/subject.py,
    and the state of LocalNode and Controller objects.
    Calls to the operating system and to user code are answered by an oracle that may depend
    on everything that happened before; every such call is appended to a trace.
    Sequential: one thread runs at a time (see TidM.v and PostM.v for interleavings). *)
From Verif Require Import PyBase BytesM EsvM MsgM PropM ObjM DbData DbM.

(** ** node.py *)

(** Node: address None stands for the empty tuple. *)
Record node := mknode { n_addr : option addr; n_objs : list (Z * obj) }.

(** Node.set_address, node.py:30-34 ([None]: not a tuple of length 2). *)
Definition set_address (a : option addr) (n : node) : node * bool :=
  match a with
  | None => (n, false)
  | Some a => (mknode (Some a) (n_objs n), true)
  end.
(** Node(addr), node.py:25-28. *)
Definition new_node (a : option addr) : node := fst (set_address a (mknode None [])).

Definition PORT : Z := 3610.
(** Node.ip, Node.port, node.py:40-50. *)
Definition node_ip (n : node) : string :=
  match n_addr n with None => ""%string | Some a => fst a end.
Definition node_port (n : node) : Z :=
  match n_addr n with None => 0 | Some _ => PORT end.

(** Node.add_object, node.py:52-57 ([None]: not an Object).  The object is taken to be a
    Python object that is not yet used elsewhere. *)
Definition node_add_object (o : option obj) (n : node) : node * bool :=
  match o with
  | None => (n, false)
  | Some o => (mknode (n_addr n) (zset (o_code o) o (n_objs n)), true)
  end.
(** Node.objects, has_object, get_object, node.py:59-81. *)
Definition node_objects (n : node) : list obj := dvals (n_objs n).
Definition has_object (code : Z) (n : node) : bool := existsb (Z.eqb code) (dkeys (n_objs n)).
Definition get_object (a : pycode) (n : node) : option obj :=
  zget (o_code (new_object a)) (n_objs n).

(** ** Trace of interactions with the outside *)
Inductive event :=
| EvBind (uni : bool) (ifaddr : string) (r : res unit)     (* socket created, bound, joined *)
| EvClose (uni : bool) (ifaddr : string)                   (* socket closed *)
| EvSend (ifaddr : string) (b : list Z) (dest : addr) (r : res Z)   (* sendto and its result *)
| EvObs (n : nat) (m : msg)                    (* message_received of a user observer of a server *)
| EvObjObs (code : Z) (n : nat) (m : msg)      (* ... of a user observer of an object *)
| EvNodeAdd (l : nat) (n : node)               (* listener callbacks *)
| EvNodeUpd (l : nat) (n : node)
| EvObjUpd (l : nat) (n : node) (o : obj)
| EvPropUpd (l : nat) (n : node) (o : obj) (p : oprop).
Notation trace := (list event).

(** The operating system and user code.  [os_netif] is what netifaces reports: for each
    interface None or its AF_INET records, each with or without an 'addr'. *)
Record os := mkos {
  os_netif : trace -> list (option (list (option string)));
  os_bind : trace -> bool -> string -> res unit;
  os_sendto : trace -> string -> list Z -> addr -> res Z;
  os_resolve : trace -> string -> res string;
  os_user : trace -> event -> res unit }.

(** A call of user code. *)
Definition call (w : os) (tr : trace) (ev : event) : trace * res unit := (tr ++ [ev], os_user w tr ev).

(** Calls in a row; an exception ends them. *)
Fixpoint calls (w : os) (tr : trace) (l : list event) : trace * res unit :=
  match l with
  | [] => (tr, Ok tt)
  | ev :: r =>
      match call w tr ev with
      | (tr1, Ok _) => calls w tr1 r
      | (tr1, Err e) => (tr1, Err e)
      end
  end.

(** ** protocol/subject.py *)

(** Observers of a server: the node itself, a user observer, or None. *)
Inductive obs := ONode | OUser (n : nat) | ONone.
Definition obs_eqb (a b : obs) : bool :=
  match a, b with
  | ONode, ONode => true
  | OUser n, OUser k => Nat.eqb n k
  | ONone, ONone => true
  | _, _ => false
  end.
(** Subject.add_observer, protocol/subject.py:29-45: [object is None] tests the builtin class
    [object], so it is never true. *)
Definition subj_add (o : obs) (l : list obs) : list obs * bool :=
  if existsb (obs_eqb o) l then (l, true) else (l ++ [o], true).

(** ** frame/server.py, unicast_server.py, multicast_server.py *)
Record server := mksrv { s_uni : bool; s_if : string; s_open : bool; s_alive : bool; s_obs : list obs }.

(** Server(), UnicastServer(), MulticastServer(), server.py:33-38. *)
Definition new_server (uni : bool) : server := mksrv uni "" false false [].

(** UnicastServer.bind / MulticastServer.bind, unicast_server.py:30-35,
    multicast_server.py:28-35, server.py:49-51; socket errors are raised. *)
Definition server_bind (w : os) (tr : trace) (ifaddr : string) (s : server)
  : server * trace * res bool :=
  let r := os_bind w tr (s_uni s) ifaddr in
  let tr' := tr ++ [EvBind (s_uni s) ifaddr r] in
  match r with
  | Ok _ => (mksrv (s_uni s) ifaddr true (s_alive s) (s_obs s), tr', Ok true)
  | Err e => (mksrv (s_uni s) ifaddr (s_open s) (s_alive s) (s_obs s), tr', Err e)
  end.
(** Server.start, server.py:94-98 (starting a thread is taken to succeed). *)
Definition server_start (s : server) : server * bool :=
  if negb (s_open s) then (s, false)
  else (mksrv (s_uni s) (s_if s) (s_open s) true (s_obs s), true).
(** Server.stop, server.py:100-110.  Not called from the server's own thread. *)
Definition server_stop (s : server) : server * trace * bool :=
  if negb (s_open s) then (s, [], false)
  else (mksrv (s_uni s) (s_if s) false false (s_obs s), [EvClose (s_uni s) (s_if s)], true).
(** Server.add_observer, server.py:74-84. *)
Definition server_add_observer (o : obs) (s : server) : server :=
  mksrv (s_uni s) (s_if s) (s_open s) (s_alive s) (fst (subj_add o (s_obs s))).

Definition MULTICAST_ADDRESS : string := "224.0.23.0".
Definition MULTICAST : addr := (MULTICAST_ADDRESS, PORT).

(** msg.to_string() then sendto(msg.to_bytes(), addr) <= 0, unicast_server.py:42-47, 55-60. *)
Definition server_transmit (w : os) (tr : trace) (s : server) (m : msg) (a : addr)
  : trace * msg * res bool :=
  let m := set_to (Some a) m in
  match to_string m with
  | Err e => (tr, m, Err e)
  | Ok _ =>
    match to_bytes m with
    | Err e => (tr, m, Err e)
    | Ok b =>
      let r := os_sendto w tr (s_if s) b a in
      let tr' := tr ++ [EvSend (s_if s) b a r] in
      match r with
      | Err e => (tr', m, Err e)
      | Ok n => (tr', m, Ok (negb (n <=? 0)))
      end
    end
  end.
(** UnicastServer.announce_message, unicast_server.py:37-47. *)
Definition server_announce (w : os) (tr : trace) (s : server) (m : msg) : trace * msg * res bool :=
  if negb (s_open s) then (tr, m, Ok false)
  else server_transmit w tr s m MULTICAST.
(** UnicastServer.send_message, unicast_server.py:49-60 ([None]: not a tuple of length 2). *)
Definition server_send (w : os) (tr : trace) (s : server) (m : msg) (a : option addr)
  : trace * msg * res bool :=
  match a with
  | None => (tr, m, Ok false)
  | Some a => if negb (s_open s) then (tr, m, Ok false) else server_transmit w tr s m a
  end.

(** ** frame/interface.py *)
(** Interface.get_all_ipaddrs, interface.py:21-34. *)
Definition get_all_ipaddrs (ifs : list (option (list (option string)))) : list string :=
  flat_map (fun ifaddrs =>
    match ifaddrs with
    | None => []
    | Some inets =>
        flat_map (fun inet =>
          match inet with
          | None => []
          | Some ipaddr => if String.eqb ipaddr "127.0.0.1" then [] else [ipaddr]
          end) inets
    end) ifs.

(** ** frame/manager.py *)
Record manager := mkmgr { g_tid : Z; g_servers : list server }.
(** Manager(), manager.py:28-30. *)
Definition new_manager : manager := mkmgr 0 [].
Definition set_servers (l : list server) (g : manager) : manager := mkmgr (g_tid g) l.

(** __next_TID, manager.py:35-39. *)
Definition next_TID (g : manager) : manager * Z :=
  let t := g_tid g + 1 in
  let t := if 0xFFFF <? t then 1 else t in
  (mkmgr t (g_servers g), t).

(** Manager.ifaddr, Manager.port, manager.py:41-53. *)
Definition mgr_ifaddr (g : manager) : string :=
  match find s_uni (g_servers g) with Some s => s_if s | None => ""%string end.
Definition mgr_port (g : manager) : Z :=
  match find s_uni (g_servers g) with Some _ => PORT | None => 0 end.

(** Manager.add_observer, manager.py:55-57. *)
Definition mgr_add_observer (o : obs) (g : manager) : manager :=
  set_servers (map (server_add_observer o) (g_servers g)) g.

(** "if msg.TID == 0: msg.TID = self.__next_TID()", manager.py:64-65, 72-73. *)
Definition assign_TID (g : manager) (m : msg) : manager * msg :=
  if m_TID m =? 0 then let '(g', t) := next_TID g in (g', set_TID t m) else (g, m).

(** Manager.announce_message, manager.py:63-69. *)
Fixpoint announce_loop (w : os) (tr : trace) (l : list server) (m : msg) : trace * msg * res unit :=
  match l with
  | [] => (tr, m, Ok tt)
  | s :: r =>
      if s_uni s then
        match server_announce w tr s m with
        | (tr1, m1, Err e) => (tr1, m1, Err e)
        | (tr1, m1, Ok _) => announce_loop w tr1 r m1
        end
      else announce_loop w tr r m
  end.
Definition mgr_announce (w : os) (tr : trace) (g : manager) (m : msg)
  : manager * trace * msg * res bool :=
  let '(g1, m1) := assign_TID g m in
  match announce_loop w tr (g_servers g1) m1 with
  | (tr1, m2, Err e) => (g1, tr1, m2, Err e)
  | (tr1, m2, Ok _) => (g1, tr1, m2, Ok true)
  end.

(** Manager.send_message, manager.py:71-79. *)
Fixpoint send_loop (w : os) (tr : trace) (l : list server) (m : msg) (a : option addr)
  : trace * msg * res bool :=
  match l with
  | [] => (tr, m, Ok false)
  | s :: r =>
      if s_uni s then
        match server_send w tr s m a with
        | (tr1, m1, Err e) => (tr1, m1, Err e)
        | (tr1, m1, Ok true) => (tr1, m1, Ok true)
        | (tr1, m1, Ok false) => send_loop w tr1 r m1 a
        end
      else send_loop w tr r m a
  end.
Definition mgr_send (w : os) (tr : trace) (g : manager) (m : msg) (a : option addr)
  : manager * trace * msg * res bool :=
  let '(g1, m1) := assign_TID g m in
  let '(tr1, m2, r) := send_loop w tr (g_servers g1) m1 a in
  (g1, tr1, m2, r).

(** Manager.stop, manager.py:111-115. *)
Definition mgr_stop (tr : trace) (g : manager) : manager * trace * bool :=
  (set_servers [] g, tr ++ flat_map (fun s => snd (fst (server_stop s))) (g_servers g), true).

(** One server of Manager.start, manager.py:88-95 and 97-104. *)
Definition mgr_start_one (w : os) (tr : trace) (g : manager) (uni : bool) (ifaddr : string)
  : manager * trace * res bool :=
  match server_bind w tr ifaddr (new_server uni) with
  | (_, tr1, Err e) => (g, tr1, Err e)
  | (_, tr1, Ok false) => let '(g1, tr2, _) := mgr_stop tr1 g in (g1, tr2, Ok false)
  | (s, tr1, Ok true) =>
      match server_start s with
      | (_, false) => let '(g1, tr2, _) := mgr_stop tr1 g in (g1, tr2, Ok false)
      | (s1, true) => (set_servers (g_servers g ++ [s1]) g, tr1, Ok true)
      end
  end.
Fixpoint mgr_start_loop (w : os) (tr : trace) (g : manager) (ifaddrs : list string)
  : manager * trace * res bool :=
  match ifaddrs with
  | [] => (g, tr, Ok true)
  | ifaddr :: r =>
      match mgr_start_one w tr g true ifaddr with
      | (g1, tr1, Ok true) =>
          match mgr_start_one w tr1 g1 false ifaddr with
          | (g2, tr2, Ok true) => mgr_start_loop w tr2 g2 r
          | x => x
          end
      | x => x
      end
  end.
(** Manager.start, manager.py:81-109. *)
Definition mgr_start (w : os) (tr : trace) (g : manager) (ifaddrs : list string)
  : manager * trace * res bool :=
  let '(g0, tr0, _) := mgr_stop tr g in
  let ifaddrs := if zlen ifaddrs <=? 0 then get_all_ipaddrs (os_netif w tr0) else ifaddrs in
  match mgr_start_loop w tr0 g0 ifaddrs with
  | (g1, tr1, Ok true) =>
      if zlen (g_servers g1) <=? 0 then (g1, tr1, Ok false) else (g1, tr1, Ok true)
  | x => x
  end.

(** ** State of a LocalNode (and of a Controller) *)

(** __node_profile_obj, local_node.py:34-36: the object in the table under 0x0EF001, or, after
    the user has added another object with that code, an object that is not in the table. *)
Inductive prof := InTable | Detached (o : obj).

(** The attributes a Controller adds, controller.py:79-91; c_req and c_resp are the request
    and the response of __last_post_msg. *)
Record ctl := mkctl {
  c_found : list (string * node);
  c_req : option msg; c_resp : option msg;
  c_listeners : list nat }.
Definition new_ctl : ctl := mkctl [] None None [].

Record lnode := mkln {
  ln_node : node; ln_prof : prof; ln_opts : Z; ln_mgr : manager; ln_ctl : option ctl }.
Definition set_ln_node (n : node) (s : lnode) : lnode := mkln n (ln_prof s) (ln_opts s) (ln_mgr s) (ln_ctl s).
Definition set_ln_prof (p : prof) (s : lnode) : lnode := mkln (ln_node s) p (ln_opts s) (ln_mgr s) (ln_ctl s).
Definition set_ln_opts (v : Z) (s : lnode) : lnode := mkln (ln_node s) (ln_prof s) v (ln_mgr s) (ln_ctl s).
Definition set_ln_mgr (g : manager) (s : lnode) : lnode := mkln (ln_node s) (ln_prof s) (ln_opts s) g (ln_ctl s).
Definition set_ln_ctl (c : option ctl) (s : lnode) : lnode := mkln (ln_node s) (ln_prof s) (ln_opts s) (ln_mgr s) c.
Definition ln_objs (s : lnode) : list (Z * obj) := n_objs (ln_node s).
Definition ln_addr (s : lnode) : option addr := n_addr (ln_node s).
(** Replaces the object stored under a key (an in-place change of that object). *)
Definition put_obj (key : Z) (o : obj) (s : lnode) : lnode :=
  set_ln_node (mknode (n_addr (ln_node s)) (zset key o (n_objs (ln_node s)))) s.
