(** Specifications for exchanges between a controller and a device node (C55). *)
From Verif Require Import PyBase MsgM PropM ObjM SpecWire SpecReq NodeM LocalM CtrlM SpecNode SpecLocal SpecSrv SpecCtrl.

(** ** A network of two nodes *)
Record world := mkworld { x_ctl : lnode; x_ctr : trace; x_dev : lnode; x_dtr : trace }.
(** The events since [tr]; the datagrams among them that reach address [a]. *)
Definition since (tr tr' : trace) : trace := skipn (length tr) tr'.
Definition reach (a : addr) (evs : trace) : list (list Z) :=
  map send_bytes (filter (fun x => delivered x && addr_eqb (snd (fst x)) a) (sent evs)).
(** Datagrams from [a] arrive at server [i]. *)
Definition arrive {PS : PySet} (w : os) (tr : trace) (s : lnode) (i : nat) (a : addr) (bs : list (list Z)) : lnode * trace :=
  run w tr s (map (fun b => (i, (b, a))) bs).
(** post_message of a controller at address [ac] to a device at address [an]: the request is sent,
    what reaches the device arrives at its server [jd], what the device sends to the controller
    arrives at the controller's server [jc], and post_message returns. *)
Definition transact {PS : PySet} (wc wd : os) (jc jd : nat) (ac an : addr) (m : msg) (d : dest) (x : world) : world * option msg :=
  let '(c1, tc1, _, r) := post_begin wc (x_ctr x) (x_ctl x) m d in
  match r with
  | Ok true =>
      let '(d1, td1) := arrive wd (x_dtr x) (x_dev x) jd ac (reach an (since (x_ctr x) tc1)) in
      let '(c2, tc2) := arrive wc tc1 c1 jc an (reach ac (since (x_dtr x) td1)) in
      (mkworld c2 tc2 d1 td1, post_end c2)
  | _ => (mkworld c1 tc1 (x_dev x) (x_dtr x), None)
  end.

(** A node that listens on server [j] and can send. *)
Definition online (s : lnode) (j : nat) : Prop :=
  open_ifs s <> [] /\ exists v, server_at s j = Some v /\ s_alive v = true /\ s_obs v = [ONode].
(** A controller that has found a node at [ip]. *)
Definition has_found (s : lnode) (ip : string) : Prop :=
  exists c n, ln_ctl s = Some c /\ sget ip (c_found c) = Some n.
(** The controller and the device are online, the controller has found the device, and the device
    hosts [o] under [code]. *)
Definition linked (jc jd : nat) (an : addr) (code : Z) (o : obj) (x : world) : Prop :=
  online (x_ctl x) jc /\ has_found (x_ctl x) (fst an) /\ 0 <= g_tid (ln_mgr (x_ctl x)) <= 65535 /\
  online (x_dev x) jd /\ ln_ctl (x_dev x) = None /\ zget code (ln_objs (x_dev x)) = Some o.

(** ** Requests as a user makes them: new messages to object [code] *)
Definition write_request (code : Z) (ps : list prop) : msg := mkmsg 0 0 code 0x61 ps [] [] None None.
Definition read_request (code : Z) (cs : list Z) : msg := mkmsg 0 0 code 0x62 (map (fun c => mkprop c []) cs) [] [] None None.
Definition write_read_request (code : Z) (ps : list prop) (cs : list Z) : msg :=
  mkmsg 0 0 code 0x6E [] ps (map (fun c => mkprop c []) cs) None None.
(** The TID the controller gives next. *)
Definition next_tid (s : lnode) : Z := g_tid (ln_mgr s) mod 65535 + 1.
(** [m] as it arrives at the device. *)
Definition as_received (s : lnode) (ac : addr) (m : msg) : msg :=
  mkmsg (next_tid s) 0x0EF001 (m_DEOJ m) (m_ESV m) (m_props m) (m_sets m) (m_gets m) (Some ac) None.

(** The object lets its built-in handler write and read the property. *)
Definition writable (o : obj) (p : prop) : Prop :=
  exists q, get_property (p_code p) o = Some q /\ may_write (o_handler o) q = true /\ can_read q = true.
(** A write that fits a frame and a datagram, of properties that differ. *)
Definition sendable_write (o : obj) (code : Z) (m : msg) (ps : list prop) : Prop :=
  0 <= code < 2 ^ 24 /\ fits_list ps /\ Forall data_ok ps /\ NoDup (map p_code ps) /\ Forall (writable o) ps /\ (length (wire m) <= 1024)%nat.
(** The answers' property lists: codes only. *)
Definition codes_only (ps : list prop) : list prop := map (fun p => mkprop (p_code p) []) ps.
