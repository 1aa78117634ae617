(** Model of /repo/uecho/object.py (class Object) and /repo/uecho/super_object.py.

    An object's Property instances are values in the dictionary: no Property is shared
    between two objects (HeapM.v has references; property C80 compares the two).  A user handler may change data and attributes of the object's
    properties (and add properties), as any function of the current properties and of the
    number of calls made so far; it does not delete Property objects.
    The back references obj.node and prop.object are not modelled here. *)
From Verif Require Import PyBase BytesM EsvM MsgM PropM.

Definition props := list (Z * oprop).

(** A user defined ObjectRequestHandler, object.py:25-52: arbitrary behaviour.  The first
    argument is the number of earlier calls, so that the answer may vary over time; the
    result is the (possibly changed) property table and the returned truth value or a
    raised exception.  The property argument is None where the code passes None. *)
Record uhandler := mkuhandler {
  h_read : nat -> props -> option oprop -> props * res bool;
  h_write : nat -> props -> oprop -> list Z -> props * res bool }.

(** The handler of an object: none (object.py:96), the object itself as a SuperObject
    (super_object.py:29), the object itself as NodeProfileReadOnly (node_profile.py:160-161),
    or a user handler (set_request_handler / a user subclass). *)
Inductive handler := HNone | HSuper | HReadOnly | HUser (h : uhandler).

(** The class of an object, which decides what add_property and set_code do. *)
Inductive ocls := CObject | CSuper | CStandard | CProfile.

Record obj := mkobj {
  o_code : Z; o_name : string; o_props : props; o_handler : handler;
  o_calls : nat; o_obs : list nat; o_cls : ocls }.

Definition set_o_code (c : Z) (o : obj) : obj :=
  mkobj c (o_name o) (o_props o) (o_handler o) (o_calls o) (o_obs o) (o_cls o).
Definition set_o_name (n : string) (o : obj) : obj :=
  mkobj (o_code o) n (o_props o) (o_handler o) (o_calls o) (o_obs o) (o_cls o).
Definition set_o_props (p : props) (o : obj) : obj :=
  mkobj (o_code o) (o_name o) p (o_handler o) (o_calls o) (o_obs o) (o_cls o).
Definition set_o_handler (h : handler) (o : obj) : obj :=
  mkobj (o_code o) (o_name o) (o_props o) h (o_calls o) (o_obs o) (o_cls o).
Definition set_o_obs (l : list nat) (o : obj) : obj :=
  mkobj (o_code o) (o_name o) (o_props o) (o_handler o) (o_calls o) l (o_cls o).
Definition after_call (p : props) (o : obj) : obj :=
  mkobj (o_code o) (o_name o) p (o_handler o) (S (o_calls o)) (o_obs o) (o_cls o).

(** Object.CODE_UNKNOWN (the second assignment, object.py:63), used by __init__, object.py:92. *)
Definition CODE_UNKNOWN : Z := 0.

(** Code arguments: int, tuple of ints, another Object (its code), None, anything else. *)
Inductive pycode := PInt (c : Z) | PTup (l : list Z) | PObj (c : Z) | PNone | POther.

(** group_code, class_code, instance_code getters, object.py:194-196, 202-204, 210-212. *)
Definition group_code (code : Z) : Z := Z.land (Z.shiftr code 16) 0xFF.
Definition class_code (code : Z) : Z := Z.land (Z.shiftr code 8) 0xFF.
Definition instance_code (code : Z) : Z := Z.land code 0xFF.
(** The setters, object.py:198-200, 206-208, 214-216: they only OR bits in. *)
Definition set_group_code (g code : Z) : Z := Z.lor code (Z.shiftl (Z.land g 0xFF) 16).
Definition set_class_code (c code : Z) : Z := Z.lor code (Z.shiftl (Z.land c 0xFF) 8).
Definition set_instance_code (i code : Z) : Z := Z.lor code (Z.land i 0xFF).

(** Object.set_code, object.py:103-132: new code and the returned value. *)
Definition set_code (cur : Z) (a : pycode) : Z * bool :=
  match a with
  | PNone => (cur, false)
  | PObj c => (c, false)
  | PInt c => (c, true)
  | PTup [g; c] => (set_class_code c (set_group_code g 0), true)
  | PTup [g; c; i] => (set_instance_code i (set_class_code c (set_group_code g 0)), true)
  | PTup _ => (cur, false)
  | POther => (cur, false)
  end.

(** Object.is_code, object.py:134-169. *)
Definition is_code (cur : Z) (a : pycode) : bool :=
  match a with
  | PObj c => if cur =? c then true else false
  | PInt c => if cur =? c then true else false
  | PTup [g] => if negb (group_code cur =? g) then false else true
  | PTup [g; c] =>
      if negb (group_code cur =? g) then false
      else if negb (class_code cur =? c) then false else true
  | PTup [g; c; i] =>
      if negb (group_code cur =? g) then false
      else if negb (class_code cur =? c) then false
      else if negb (instance_code cur =? i) then false else true
  | PTup _ => false
  | PNone => false
  | POther => false
  end.

(** is_group, is_class, object.py:171-192. *)
Definition is_group (cur g : Z) : bool := is_code cur (PTup [g]).
Definition is_class (cur g c : Z) : bool := is_code cur (PTup [g; c]).

(** Object(code), object.py:91-98. *)
Definition new_object (a : pycode) : obj :=
  mkobj (fst (set_code CODE_UNKNOWN a)) "" [] HNone 0 [] CObject.

(** Object.add_property, object.py:222-227 ([None]: the argument is not a Property). *)
Definition add_property_base (p : option oprop) (o : obj) : obj * bool :=
  match p with
  | None => (o, false)
  | Some p => (set_o_props (zset (op_code p) p (o_props o)) o, true)
  end.

(** get_property, get_property_data, has_property, object.py:229-245. *)
Definition get_property (code : Z) (o : obj) : option oprop := zget code (o_props o).
Definition get_property_data (code : Z) (o : obj) : option (list Z) :=
  match zget code (o_props o) with Some p => Some (op_data p) | None => None end.
Definition has_property (code : Z) (o : obj) : bool := isSome (get_property code o).

(** set_property_data, object.py:247-252. *)
Definition set_property_data (code : Z) (data : list Z) (o : obj) : obj * bool :=
  match get_property code o with
  | None => (o, false)
  | Some p => (set_o_props (zset code (set_op_data data p) (o_props o)) o, true)
  end.

(** set_property_integer, object.py:257-258; Bytes.from_int may raise first. *)
Definition set_property_integer (code val size : Z) (o : obj) : obj * res bool :=
  match from_int val size with
  | Err e => (o, Err e)
  | Ok b => let '(o', r) := set_property_data code b o in (o', Ok r)
  end.

(** set_request_handler, object.py:260-267. *)
Definition set_request_handler (h : handler) (o : obj) : obj := set_o_handler h o.

(** Subject.add_observer, protocol/subject.py:29-45.  [object is None] (line 39) tests the
    builtin class, so it is never true; None is added like anything else.  Observers are
    identified by numbers; equality of observers is identity. *)
Definition subject_add (observer : nat) (l : list nat) : list nat * bool :=
  if existsb (Nat.eqb observer) l then (l, true) else (l ++ [observer], true).
(** Object.add_observer, object.py:288-298. *)
Definition obj_add_observer (observer : nat) (o : obj) : obj * bool :=
  let '(l, r) := subject_add observer (o_obs o) in (set_o_obs l o, r).

(** Object.copy, object.py:438-444: a plain Object without handler and observers
    (failures of copy.deepcopy on attached objects are not modelled). *)
Definition copy_object (o : obj) : obj :=
  fold_left (fun acc p => fst (add_property_base (Some p) acc)) (dvals (o_props o))
    (set_o_name (o_name o) (set_o_code (o_code o) (new_object PNone))).

(** ** SuperObject *)

(** list(set(l)): an arbitrary but fixed enumeration without duplicates. *)
Class PySet := {
  set_list : list Z -> list Z;
  set_list_nodup : forall l, NoDup (set_list l);
  set_list_in : forall l x, In x (set_list l) <-> In x l }.

Section Super.
Context {PS : PySet}.

(** bytes([x]) for all elements in order: ValueError if one is not a byte. *)
Definition bytes_of (l : list Z) : res (list Z) :=
  if forallb byte_okb l then Ok l else Err ValueError.

(** Format 2 bitmap, super_object.py:65-71. *)
Definition map2_encode (prop_map : list Z) : list Z :=
  fold_left (fun codes prop_code =>
    let idx := Z.to_nat (Z.land (prop_code - PROP_CODE_MIN) 0x0F) in
    let bit := Z.land (Z.shiftr (Z.land (prop_code - PROP_CODE_MIN) 0xF0) 4) 0x0F in
    upd codes idx (Z.lor (nth idx codes 0) (Z.land (Z.shiftl 1 bit) 0x0F)))
    prop_map (repeat 0 PROPERTYMAP_FORMAT2_MAP_SIZE).

(** __set_property_map_property, super_object.py:46-75. *)
Definition set_property_map (code : Z) (prop_map : list Z) (o : obj) : obj * res bool :=
  if negb (has_property code o) then (o, Ok false)
  else
    match bytes_of (zlen prop_map :: prop_map) with
    | Err e => (o, Err e)
    | Ok map_bytes =>
        if is_format1 (zlen prop_map) then
          let '(o', r) := set_property_data code map_bytes o in (o', Ok r)
        else
          match bytes_of (Z.of_nat PROPERTYMAP_FORMAT2_MAP_SIZE :: map2_encode prop_map) with
          | Err e => (o, Err e)
          | Ok map_bytes =>
              let '(o', r) := set_property_data code map_bytes o in (o', Ok r)
          end
    end.

Definition ANNO_PROPERTY_MAP : Z := 0x9D.
Definition SET_PROPERTY_MAP : Z := 0x9E.
Definition GET_PROPERTY_MAP : Z := 0x9F.

(** The three code lists, super_object.py:78-87. *)
Definition codes_where (f : oprop -> bool) (o : obj) : list Z :=
  map op_code (filter f (dvals (o_props o))).

(** _update_property_map_properties, super_object.py:77-97. *)
Definition update_property_maps (o : obj) : obj * res bool :=
  let anno_map := set_list (codes_where is_announce_required o) in
  let get_map := set_list (codes_where is_read_enabled o) in
  let set_map := set_list (codes_where is_write_enabled o) in
  match set_property_map ANNO_PROPERTY_MAP anno_map o with
  | (o1, Err e) => (o1, Err e)
  | (o1, Ok false) => (o1, Ok false)
  | (o1, Ok true) =>
    match set_property_map GET_PROPERTY_MAP get_map o1 with
    | (o2, Err e) => (o2, Err e)
    | (o2, Ok false) => (o2, Ok false)
    | (o2, Ok true) => set_property_map SET_PROPERTY_MAP set_map o2
    end
  end.

(** SuperObject.add_property, super_object.py:31-35. *)
Definition add_property_super (p : option oprop) (o : obj) : obj * res bool :=
  match add_property_base p o with
  | (o1, false) => (o1, Ok false)
  | (o1, true) =>
      match update_property_maps o1 with
      | (o2, Err e) => (o2, Err e)
      | (o2, Ok _) => (o2, Ok true)
      end
  end.

(** obj.add_property(p) for the class of the object. *)
Definition obj_add_property (p : option oprop) (o : obj) : obj * res bool :=
  match o_cls o with
  | CObject => let '(o', r) := add_property_base p o in (o', Ok r)
  | _ => add_property_super p o
  end.

(** _set_object_properties, super_object.py:37-44 ([src]: name and properties of a standard
    object; Property.copy gives an equal value). *)
Fixpoint add_all (l : list oprop) (o : obj) : obj * res bool :=
  match l with
  | [] => (o, Ok true)
  | p :: r =>
      match add_property_super (Some p) o with
      | (o', Err e) => (o', Err e)
      | (o', Ok _) => add_all r o'
      end
  end.
Definition set_object_properties (src : obj) (o : obj) : obj * res bool :=
  add_all (dvals (o_props src)) (set_o_name (o_name src) o).

(** SuperObject(code), super_object.py:27-29. *)
Definition new_super_object (a : pycode) : obj :=
  mkobj (fst (set_code CODE_UNKNOWN a)) "" [] HSuper 0 [] CSuper.

End Super.

(** ** Answering requests *)

(** handler.property_read_requested(p): SuperObject, super_object.py:99-103. *)
Definition read_requested (o : obj) (p : option oprop) : obj * res bool :=
  match o_handler o with
  | HNone => (o, Err AttributeError)
  | HSuper | HReadOnly =>
      match p with
      | None => (o, Err AttributeError)
      | Some p =>
          (o, Ok (match get_property (op_code p) o with
                  | None => false
                  | Some q => is_read_enabled q
                  end))
      end
  | HUser h => let '(ps, r) := h_read h (o_calls o) (o_props o) p in (after_call ps o, r)
  end.

(** handler.property_write_requested(p, data): super_object.py:105-109 and
    node_profile.py:160-161. *)
Definition write_requested (o : obj) (p : oprop) (data : list Z) : obj * res bool :=
  match o_handler o with
  | HNone => (o, Err AttributeError)
  | HSuper =>
      (o, Ok (match get_property (op_code p) o with
              | None => false
              | Some q => is_write_enabled q
              end))
  | HReadOnly => (o, Ok false)
  | HUser h => let '(ps, r) := h_write h (o_calls o) (o_props o) p data in (after_call ps o, r)
  end.

(** obj_prop.data = data through the reference obtained under [code]. *)
Definition store (code : Z) (data : list Z) (o : obj) : obj :=
  fst (set_property_data code data o).
(** obj_prop.data through the reference obtained under [code] as [p]. *)
Definition current (code : Z) (p : oprop) (o : obj) : list Z :=
  match get_property code o with Some q => op_data q | None => op_data p end.

(** One write of a request, object.py:350-359 and 377-382: the new object, the response
    property, and whether it was accepted. *)
Definition do_write (o : obj) (mp : prop) : obj * res (prop * bool) :=
  match get_property (p_code mp) o with
  | None => (o, Ok (mkprop (p_code mp) [], false))
  | Some p =>
      match write_requested o p (p_data mp) with
      | (o1, Err e) => (o1, Err e)
      | (o1, Ok true) => (store (p_code mp) (p_data mp) o1, Ok (mkprop (p_code mp) [], true))
      | (o1, Ok false) => (o1, Ok (mkprop (p_code mp) (p_data mp), false))
      end
  end.

(** One read of a read request, object.py:369-375 and 382. *)
Definition do_read (o : obj) (mp : prop) : obj * res (prop * bool) :=
  match get_property (p_code mp) o with
  | None => (o, Ok (mkprop (p_code mp) [], false))
  | Some p =>
      match read_requested o (Some p) with
      | (o1, Err e) => (o1, Err e)
      | (o1, Ok true) => (o1, Ok (mkprop (p_code mp) (current (p_code mp) p o1), true))
      | (o1, Ok false) => (o1, Ok (mkprop (p_code mp) [], false))
      end
  end.

(** One read of a write-read request, object.py:360-366: no check for None. *)
Definition do_read_wr (o : obj) (mp : prop) : obj * res (prop * bool) :=
  let op := get_property (p_code mp) o in
  match read_requested o op with
  | (o1, Err e) => (o1, Err e)
  | (o1, Ok true) =>
      match op with
      | None => (o1, Err AttributeError)
      | Some p => (o1, Ok (mkprop (p_code mp) (current (p_code mp) p o1), true))
      end
  | (o1, Ok false) => (o1, Ok (mkprop (p_code mp) [], false))
  end.

(** A property of a request that is neither read nor written, object.py:368-382. *)
Definition do_skip (o : obj) (mp : prop) : obj * res (prop * bool) :=
  (o, Ok (mkprop (p_code mp) [], false)).

(** The loops of message_received, object.py:349-382: response properties and count. *)
Fixpoint do_loop (f : obj -> prop -> obj * res (prop * bool)) (o : obj) (l : list prop)
  : obj * res (list prop * Z) :=
  match l with
  | [] => (o, Ok ([], 0))
  | mp :: r =>
      match f o mp with
      | (o1, Err e) => (o1, Err e)
      | (o1, Ok (rp, acc)) =>
          match do_loop f o1 r with
          | (o2, Err e) => (o2, Err e)
          | (o2, Ok (rps, n)) => (o2, Ok (rp :: rps, (if acc then 1 else 0) + n))
          end
      end
  end.

(** The body of the loop for a request other than write-read, object.py:368-382. *)
Definition do_plain (esv : Z) : obj -> prop -> obj * res (prop * bool) :=
  if is_read_request esv then do_read
  else if is_write_request esv then do_write
  else do_skip.

(** Choice of the response service, object.py:384-436: None = no response. *)
Definition response_esv (esv : Z) (all : bool) : option Z :=
  if esv =? WRITE_REQUEST then (if all then None else Some WRITE_REQUEST_ERROR)
  else if esv =? WRITE_REQUEST_RESPONSE_REQUIRED then
    (if all then Some WRITE_RESPONSE else Some WRITE_REQUEST_ERROR)
  else if esv =? READ_REQUEST then
    (if all then Some READ_RESPONSE else Some READ_REQUEST_ERROR)
  else if esv =? WRITE_READ_REQUEST then
    (if all then Some WRITE_READ_RESPONSE else Some WRITE_READ_REQUEST_ERROR)
  else if esv =? NOTIFICATION_REQUEST then
    (if all then Some NOTIFICATION else Some NOTIFICATION_REQUEST_ERROR)
  else if esv =? NOTIFICATION_RESPONSE_REQUIRED then
    (if all then Some NOTIFICATION_RESPONSE else None)
  else None.

(** Object.message_received, object.py:330-436 (the argument is a Message).  Result: the object, the observers told (in
    order; user observers are assumed not to raise), and the response or exception. *)
Definition obj_message_received (o : obj) (req : msg) : obj * list nat * res (option msg) :=
  let told := o_obs o in
  if negb (is_request (m_ESV req)) then (o, told, Ok None)
  else
    match o_handler o with
    | HNone => (o, told, Ok None)
    | _ =>
      let res0 := set_SEOJ (m_DEOJ req) (set_DEOJ (m_SEOJ req) (set_TID (m_TID req) new_msg)) in
      let finish (o' : obj) (res1 : msg) (accepted : Z) :=
        let all_request_cnt := OPC req + OPCSet req + OPCGet req in
        match response_esv (m_ESV req) (accepted =? all_request_cnt) with
        | None => (o', told, Ok None)
        | Some e => (o', told, Ok (Some (set_ESV e res1)))
        end in
      if is_write_read_request (m_ESV req) then
        match do_loop do_write o (m_sets req) with
        | (o1, Err e) => (o1, told, Err e)
        | (o1, Ok (sets, n)) =>
          match do_loop do_read_wr o1 (m_gets req) with
          | (o2, Err e) => (o2, told, Err e)
          | (o2, Ok (gets, k)) => finish o2 (set_gets gets (set_sets sets res0)) (n + k)
          end
        end
      else
        match do_loop (do_plain (m_ESV req)) o (m_props req) with
        | (o1, Err e) => (o1, told, Err e)
        | (o1, Ok (ps, n)) => finish o1 (set_props ps res0) n
        end
    end.
