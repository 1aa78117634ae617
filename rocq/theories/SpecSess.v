(** Sessions of a controller with a device (C67): a reference store and what operating it answers. *)
From Verif Require Import PyBase MsgM PropM ObjM SpecWire SpecReq NodeM LocalM CtrlM SpecNode SpecLocal SpecSrv SpecCtrl SpecEnd.
From Verif Require Import SpecReq.

(** ** The reference: tables of data with permissions, without messages or nodes *)
Record cell := mkcell { cl_data : list Z; cl_read : bool; cl_write : bool }.
Definition table := Z -> option cell.
Definition store := Z -> option table.

Inductive call :=
| KRead (cs : list Z)
| KWrite (ps : list prop)
| KPost (ps : list prop)            (* a write without an answer *)
| KWriteRead (ps : list prop) (cs : list Z).

Definition known (t : table) (c : Z) : bool := match t c with Some _ => true | None => false end.
Definition readable (t : table) (c : Z) : bool := match t c with Some l => cl_read l | None => false end.
Definition writeable (t : table) (c : Z) : bool := match t c with Some l => cl_write l | None => false end.
(** Reading: the data, if it may be read. *)
Definition show (t : table) (c : Z) : prop :=
  mkprop c (match t c with Some l => if cl_read l then cl_data l else [] | None => [] end).
(** Writing: nothing comes back, unless the property exists and may not be written. *)
Definition echo (t : table) (p : prop) : prop :=
  mkprop (p_code p) (if known t (p_code p) && negb (writeable t (p_code p)) then p_data p else []).
Definition poke (t : table) (p : prop) : table := fun c =>
  match t c with
  | Some l => Some (if (c =? p_code p) && cl_write l then mkcell (p_data p) (cl_read l) true else l)
  | None => None
  end.
Definition pokes (t : table) (ps : list prop) : table := fold_left poke ps t.

Definition after (t : table) (k : call) : table :=
  match k with KRead _ => t | KWrite ps => pokes t ps | KPost ps => pokes t ps | KWriteRead ps _ => pokes t ps end.
(** Service code, properties, properties written, properties read. *)
Definition reply (t : table) (k : call) : option (Z * list prop * list prop * list prop) :=
  match k with
  | KRead cs => Some (if forallb (readable t) cs then 0x72 else 0x52, map (show t) cs, [], [])
  | KWrite ps => Some (if forallb (fun p => writeable t (p_code p)) ps then 0x71 else 0x50, map (echo t) ps, [], [])
  | KPost ps => if forallb (fun p => writeable t (p_code p)) ps then None else Some (0x50, map (echo t) ps, [], [])
  | KWriteRead ps cs =>
      Some (if forallb (fun p => writeable t (p_code p)) ps && forallb (readable t) cs then 0x7E else 0x5E,
            [], map (echo t) ps, map (show (pokes t ps)) cs)
  end.

Definition store_after (S : store) (code : Z) (k : call) : store :=
  match S code with Some t => fun i => if i =? code then Some (after t k) else S i | None => S end.
Definition store_reply (S : store) (code : Z) (k : call) : option (Z * list prop * list prop * list prop) :=
  match S code with Some t => reply t k | None => None end.
Fixpoint store_run (S : store) (l : list (Z * call)) : store :=
  match l with [] => S | (code, k) :: r => store_run (store_after S code k) r end.

(** ** The same calls through post_message *)
Definition request (code : Z) (k : call) : msg :=
  match k with
  | KRead cs => read_request code cs
  | KWrite ps => write_request code ps
  | KPost ps => mkmsg 0 0 code 0x60 ps [] [] None None
  | KWriteRead ps cs => write_read_request code ps cs
  end.
Fixpoint client {PS : PySet} (wc wd : os) (jc jd : nat) (ac an : addr) (d : dest) (l : list (Z * call)) (x : world) : world * list (option msg) :=
  match l with
  | [] => (x, [])
  | (code, k) :: r => let '(x1, a) := transact wc wd jc jd ac an (request code k) d x in
                      let '(x2, al) := client wc wd jc jd ac an d r x1 in (x2, a :: al)
  end.
(** The messages the calls should return, the first with TID [t]. *)
Fixpoint replies (an : addr) (t : Z) (S : store) (l : list (Z * call)) : list (option msg) :=
  match l with
  | [] => []
  | (code, k) :: r =>
      option_map (fun '(e, ps, ss, gs) => mkmsg t code 0x0EF001 e ps ss gs (Some an) None) (store_reply S code k)
        :: replies an (t mod 65535 + 1) (store_after S code k) r
  end.

(** The controller and the device are online and the controller has found the device. *)
Definition joined (jc jd : nat) (an : addr) (x : world) : Prop :=
  online (x_ctl x) jc /\ has_found (x_ctl x) (fst an) /\ 0 <= g_tid (ln_mgr (x_ctl x)) <= 65535 /\
  online (x_dev x) jd /\ ln_ctl (x_dev x) = None.
Definition cell_of (h : handler) (p : oprop) : cell := mkcell (op_data p) (can_read p) (may_write h p).
(** The device's objects have built-in handlers and the contents of [S]. *)
Definition mirrors (s : lnode) (S : store) : Prop := forall code,
  match zget code (ln_objs s), S code with
  | Some o, Some t => builtin (o_handler o) /\ wf_obj o /\
      forall c, option_map (cell_of (o_handler o)) (get_property c o) = t c
  | None, None => True
  | _, _ => False
  end.
(** Data is bytes and fits a property. *)
Definition store_ok (S : store) : Prop := forall code t c l,
  S code = Some t -> t c = Some l -> bytes_ok (cl_data l) /\ zlen (cl_data l) <= 255.

(** A call that fits a frame and a datagram, and so does the answer.  What is left out: a read whose
    first property is D5 or D6 without data, and a write-read of an unknown property. *)
Definition call_ok (S : store) (code : Z) (k : call) : Prop :=
  let m := request code k in
  0 <= code < 2 ^ 24 /\ encodable m /\ Forall data_ok (m_props m) /\ Forall data_ok (m_sets m) /\ (length (wire m) <= 1024)%nat /\
  match S code with
  | None => True
  | Some t =>
      match reply t k with
      | Some (e, ps, ss, gs) => let a := mkmsg 0 0 0 e ps ss gs None None in
          (length (wire a) <= 1024)%nat /\ (e = 0x72 -> empty_list a = false)
      | None => True
      end /\
      match k with KWriteRead _ cs => forallb (known t) cs = true | _ => True end
  end.
Fixpoint session_ok (S : store) (l : list (Z * call)) : Prop :=
  match l with [] => True | (code, k) :: r => call_ok S code k /\ session_ok (store_after S code k) r end.
