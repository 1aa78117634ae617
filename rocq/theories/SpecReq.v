(** What answering a request means (ECHONET Lite Specification Part II, 4.2.3), stated per
    property of the request and without the loops and counters of the code. *)
From Verif Require Import PyBase MsgM PropM ObjM SpecWire.

(** Lists the service of the message does not carry are empty; true of every received
    message (carried m = m in SpecWire). *)
Definition plain (m : msg) : Prop :=
  if two_blocks (m_ESV m) then m_props m = [] else m_sets m = [] /\ m_gets m = [].

(** Every property is stored under its own code (true of tables built by add_property). *)
Definition wf_obj (o : obj) : Prop := forall c p, get_property c o = Some p -> op_code p = c.

Definition builtin (h : handler) : Prop := h = HSuper \/ h = HReadOnly.
Definition can_read (p : oprop) : bool := (op_get p =? 1) || (op_get p =? 2).
Definition can_write (p : oprop) : bool := (op_set p =? 1) || (op_set p =? 2).
(** The write permission of the built-in handlers. *)
Definition may_write (h : handler) (p : oprop) : bool :=
  match h with HSuper => can_write p | _ => false end.

(** ** Built-in handlers: answers as functions of the object *)

(** Answer data and acceptance for one property to read. *)
Definition read_answer (o : obj) (mp : prop) : list Z * bool :=
  match get_property (p_code mp) o with
  | Some p => if can_read p then (op_data p, true) else ([], false)
  | None => ([], false)
  end.
(** Answer data and acceptance for one property to write. *)
Definition write_answer (o : obj) (mp : prop) : list Z * bool :=
  match get_property (p_code mp) o with
  | Some p => if may_write (o_handler o) p then ([], true) else (p_data mp, false)
  | None => ([], false)
  end.
Definition answers (f : prop -> list Z * bool) (l : list prop) : list prop :=
  map (fun mp => mkprop (p_code mp) (fst (f mp))) l.
Definition all_accepted (f : prop -> list Z * bool) (l : list prop) : bool :=
  forallb (fun mp => snd (f mp)) l.

(** The last data a list of writes gives to a code. *)
Fixpoint last_data (c : Z) (l : list prop) : option (list Z) :=
  match l with
  | [] => None
  | mp :: r => match last_data c r with
               | Some d => Some d
               | None => if p_code mp =? c then Some (p_data mp) else None
               end
  end.
(** [o'] is [o] after the permitted ones of the writes [l]: nothing else differs. *)
Definition written (o : obj) (l : list prop) (o' : obj) : Prop :=
  o' = set_o_props (o_props o') o /\
  dkeys (o_props o') = dkeys (o_props o) /\
  forall c, get_property c o' =
    match get_property c o with
    | None => None
    | Some p => Some (if may_write (o_handler o) p then
                        match last_data c l with Some d => set_op_data d p | None => p end
                      else p)
    end.

(** ** Any handler: the sequence of consultations *)

(** [reads o l o' rs bs]: asking the handler of [o] about the properties [l] one after the
    other gives the answers [rs], accepted or not as in [bs], and leaves [o']. *)
Inductive reads : obj -> list prop -> obj -> list prop -> list bool -> Prop :=
| reads_nil o : reads o [] o [] []
| reads_unknown o mp l o' rs bs :
    get_property (p_code mp) o = None -> reads o l o' rs bs ->
    reads o (mp :: l) o' (mkprop (p_code mp) [] :: rs) (false :: bs)
| reads_refused o p o1 mp l o' rs bs :
    get_property (p_code mp) o = Some p -> read_requested o (Some p) = (o1, Ok false) ->
    reads o1 l o' rs bs ->
    reads o (mp :: l) o' (mkprop (p_code mp) [] :: rs) (false :: bs)
| reads_allowed o p o1 mp l o' rs bs d :
    get_property (p_code mp) o = Some p -> read_requested o (Some p) = (o1, Ok true) ->
    match get_property (p_code mp) o1 with Some q => d = op_data q | None => d = op_data p end ->
    reads o1 l o' rs bs ->
    reads o (mp :: l) o' (mkprop (p_code mp) d :: rs) (true :: bs).

Inductive writes : obj -> list prop -> obj -> list prop -> list bool -> Prop :=
| writes_nil o : writes o [] o [] []
| writes_unknown o mp l o' rs bs :
    get_property (p_code mp) o = None -> writes o l o' rs bs ->
    writes o (mp :: l) o' (mkprop (p_code mp) [] :: rs) (false :: bs)
| writes_refused o p o1 mp l o' rs bs :
    get_property (p_code mp) o = Some p -> write_requested o p (p_data mp) = (o1, Ok false) ->
    writes o1 l o' rs bs ->
    writes o (mp :: l) o' (mkprop (p_code mp) (p_data mp) :: rs) (false :: bs)
| writes_allowed o p o1 mp l o' rs bs :
    get_property (p_code mp) o = Some p -> write_requested o p (p_data mp) = (o1, Ok true) ->
    writes (fst (set_property_data (p_code mp) (p_data mp) o1)) l o' rs bs ->
    writes o (mp :: l) o' (mkprop (p_code mp) [] :: rs) (true :: bs).

(** A handler that never changes the table while being asked to read. *)
Definition quiet_reader (h : handler) : Prop :=
  match h with HUser u => forall n ps p, fst (h_read u n ps p) = ps | _ => True end.

(** ** Service codes *)
Definition all_true (bs : list bool) : bool := forallb (fun b => b) bs.

(** The codes the specification prescribes: accepted and refused. *)
Definition ok_service (esv : Z) : option Z :=
  if esv =? 0x61 then Some 0x71 else if esv =? 0x62 then Some 0x72
  else if esv =? 0x63 then Some 0x73 else if esv =? 0x6E then Some 0x7E
  else if esv =? 0x74 then Some 0x7A else None.
Definition error_service (esv : Z) : option Z :=
  if esv =? 0x60 then Some 0x50 else if esv =? 0x61 then Some 0x51
  else if esv =? 0x62 then Some 0x52 else if esv =? 0x63 then Some 0x53
  else if esv =? 0x6E then Some 0x5E else None.

(** Every property of the request is acceptable to the built-in handler. *)
Definition request_ok (o : obj) (req : msg) : bool :=
  if m_ESV req =? 0x6E then
    all_accepted (write_answer o) (m_sets req) && all_accepted (read_answer o) (m_gets req)
  else if m_ESV req =? 0x62 then all_accepted (read_answer o) (m_props req)
  else all_accepted (write_answer o) (m_props req).

(** ** Histories: processing messages one after the other; the object keeps the state it
    had when an exception left message_received. *)
Definition obj_step (o : obj) (m : msg) : obj := fst (fst (obj_message_received o m)).
Definition obj_run (o : obj) (l : list msg) : obj := fold_left obj_step l o.
Fixpoint obj_outs (o : obj) (l : list msg) : list (res (option msg)) :=
  match l with
  | [] => []
  | m :: r => snd (obj_message_received o m) :: obj_outs (obj_step o m) r
  end.

(** Two objects that differ at most in the data of properties that may not be read. *)
Definition secret_eq (o o' : obj) : Prop :=
  o' = set_o_props (o_props o') o /\
  Forall2 (fun a b => fst a = fst b /\
     (snd a = snd b \/
      (can_read (snd a) = false /\ snd b = set_op_data (op_data (snd b)) (snd a))))
    (o_props o) (o_props o').
