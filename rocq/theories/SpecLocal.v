(** Specifications for what a node does with a received message. *)
From Verif Require Import PyBase MsgM PropM ObjM SpecWire SpecReq NodeM LocalM CtrlM SpecNode.

(** A message as Server.run hands it to its observers: decoded from a frame, with the source
    address of the datagram. *)
Definition received_from (a : addr) (m : msg) : Prop :=
  exists f, frame_msg f /\ m = set_from (Some a) f.

(** The datagrams among some events: interface, bytes, destination, result of sendto. *)
Definition send := (string * list Z * addr * res Z)%type.
Definition sent (evs : trace) : list send :=
  flat_map (fun e => match e with EvSend i b d r => [(i, b, d, r)] | _ => [] end) evs.
Definition send_bytes (x : send) : list Z := snd (fst (fst x)).
Definition delivered (x : send) : bool := match snd x with Ok n => 0 <? n | Err _ => false end.

(** The interfaces of the open unicast servers. *)
Definition open_ifs (s : lnode) : list string :=
  map s_if (filter (fun v => s_uni v && s_open v) (g_servers (ln_mgr s))).

(** [tries b d ifs l]: the datagram [b] is sent to [d] on the interfaces [ifs] in turn, until
    one attempt succeeds or raises. *)
Inductive tries (b : list Z) (d : addr) : list string -> list send -> Prop :=
| tries_none : tries b d [] []
| tries_done i ifs n : 0 < n -> tries b d (i :: ifs) [(i, b, d, Ok n)]
| tries_raise i ifs e : tries b d (i :: ifs) [(i, b, d, Err e)]
| tries_next i ifs n l : n <= 0 -> tries b d ifs l -> tries b d (i :: ifs) ((i, b, d, Ok n) :: l).
(** [casts b d ifs l]: the datagram [b] is sent to [d] on each of the interfaces [ifs]; only an
    exception ends that. *)
Inductive casts (b : list Z) (d : addr) : list string -> list send -> Prop :=
| casts_none : casts b d [] []
| casts_raise i ifs e : casts b d (i :: ifs) [(i, b, d, Err e)]
| casts_next i ifs n l : casts b d ifs l -> casts b d (i :: ifs) ((i, b, d, Ok n) :: l).

(** Events that tell observers of an object / listeners of a controller. *)
Definition obj_event (code : Z) (m : msg) (e : event) : Prop := exists n, e = EvObjObs code n m.
Definition listener_event (e : event) : Prop :=
  match e with EvNodeAdd _ _ | EvNodeUpd _ _ | EvObjUpd _ _ _ | EvPropUpd _ _ _ _ => True | _ => False end.

(** Every object of the node answers by the built-in handler and its data fits a frame. *)
Definition fitting (o : obj) : Prop :=
  builtin (o_handler o) /\ wf_obj o /\
  forall c p, get_property c o = Some p -> zlen (op_data p) <= 255.
Definition fitting_node (s : lnode) : Prop := forall k o, zget k (ln_objs s) = Some o -> fitting o.
(** A write-read request that names a property which the addressed object does not have
    is the one that raises (finding C22). *)
Definition knows_gets (s : lnode) (m : msg) : Prop :=
  m_ESV m = 0x6E -> forall o, zget (m_DEOJ m) (ln_objs s) = Some o ->
  forall p, In p (m_gets m) -> has_property (p_code p) o = true.

(** A network that takes every datagram that is not empty. *)
Definition reliable (w : os) : Prop := forall tr i b d, b <> [] -> exists n, os_sendto w tr i b d = Ok n /\ 0 < n.
(** One that at least raises no exception. *)
Definition no_raise (w : os) : Prop := forall tr i b d, b <> [] -> exists n, os_sendto w tr i b d = Ok n.

(** Bytes [i .. j) of a datagram. *)
Definition slice (b : list Z) (i j : nat) : list Z := firstn (j - i) (skipn i b).

(** Receiving messages one after the other, and what message_received did. *)
Fixpoint received_all {PS : PySet} (w : os) (tr : trace) (s : lnode) (l : list msg)
  : lnode * trace * list (res unit) :=
  match l with
  | [] => (s, tr, [])
  | m :: rest => let '(s1, tr1, r) := node_received w tr s m in
                 let '(s2, tr2, rs) := received_all w tr1 s1 rest in (s2, tr2, r :: rs)
  end.

(** The two states differ at most in objects other than the one with code [c]. *)
Definition same_but (c : Z) (s1 s2 : lnode) : Prop :=
  zget c (ln_objs s1) = zget c (ln_objs s2) /\ ln_mgr s1 = ln_mgr s2 /\ ln_ctl s1 = ln_ctl s2 /\
  ln_opts s1 = ln_opts s2 /\ ln_addr s1 = ln_addr s2.
