(** Model of /repo/uecho/protocol/property.py, /repo/uecho/protocol/message.py,
    /repo/uecho/message.py and /repo/uecho/messages.py. *)
From Verif Require Import PyBase BytesM EsvM.

(** protocol.Property, uecho/protocol/property.py:16-26. *)
Record prop := mkprop { p_code : Z; p_data : list Z }.

(** protocol.Message, uecho/protocol/message.py:38-56.  [from_addr]/[to_addr]: None or (ip, port). *)
Record msg := mkmsg {
  m_TID : Z; m_SEOJ : Z; m_DEOJ : Z; m_ESV : Z;
  m_props : list prop; m_sets : list prop; m_gets : list prop;
  m_from : option addr; m_to : option addr }.

(** Message(), message.py:47-56, ESV.__init__ esv.py:38-39. *)
Definition new_msg : msg := mkmsg 0 0 0 UNKNOWN [] [] [] None None.

(** Attribute assignments of a message. *)
Definition set_TID (v : Z) (m : msg) : msg :=
  mkmsg v (m_SEOJ m) (m_DEOJ m) (m_ESV m) (m_props m) (m_sets m) (m_gets m) (m_from m) (m_to m).
Definition set_SEOJ (v : Z) (m : msg) : msg :=
  mkmsg (m_TID m) v (m_DEOJ m) (m_ESV m) (m_props m) (m_sets m) (m_gets m) (m_from m) (m_to m).
Definition set_DEOJ (v : Z) (m : msg) : msg :=
  mkmsg (m_TID m) (m_SEOJ m) v (m_ESV m) (m_props m) (m_sets m) (m_gets m) (m_from m) (m_to m).
Definition set_ESV (v : Z) (m : msg) : msg :=
  mkmsg (m_TID m) (m_SEOJ m) (m_DEOJ m) v (m_props m) (m_sets m) (m_gets m) (m_from m) (m_to m).
Definition set_props (v : list prop) (m : msg) : msg :=
  mkmsg (m_TID m) (m_SEOJ m) (m_DEOJ m) (m_ESV m) v (m_sets m) (m_gets m) (m_from m) (m_to m).
Definition set_sets (v : list prop) (m : msg) : msg :=
  mkmsg (m_TID m) (m_SEOJ m) (m_DEOJ m) (m_ESV m) (m_props m) v (m_gets m) (m_from m) (m_to m).
Definition set_gets (v : list prop) (m : msg) : msg :=
  mkmsg (m_TID m) (m_SEOJ m) (m_DEOJ m) (m_ESV m) (m_props m) (m_sets m) v (m_from m) (m_to m).
Definition set_from (v : option addr) (m : msg) : msg :=
  mkmsg (m_TID m) (m_SEOJ m) (m_DEOJ m) (m_ESV m) (m_props m) (m_sets m) (m_gets m) v (m_to m).
Definition set_to (v : option addr) (m : msg) : msg :=
  mkmsg (m_TID m) (m_SEOJ m) (m_DEOJ m) (m_ESV m) (m_props m) (m_sets m) (m_gets m) (m_from m) v.

(** OPC, OPCSet, OPCGet, all_properties, message.py:63-77. *)
Definition OPC (m : msg) : Z := zlen (m_props m).
Definition OPCSet (m : msg) : Z := zlen (m_sets m).
Definition OPCGet (m : msg) : Z := zlen (m_gets m).
Definition all_properties (m : msg) : list prop := m_props m ++ m_sets m ++ m_gets m.

(** is_response_message, message.py:97-100. *)
Definition is_response_message (self m : msg) : bool :=
  if negb (m_TID self =? m_TID m) then false else true.

(** Header constants, message.py:25-33. *)
Definition FORMAT1_HEADER_SIZE : nat := 8.
Definition EHD1_ECHONET : Z := 0x10.
Definition EHD2_FORMAT1 : Z := 0x81.

(** __parse_property_bytes loop body, message.py:107-120; [k] iterations are left. *)
Fixpoint parse_prop_loop (b : list Z) (k : nat) (offset : nat) (properties : list prop)
  : res (nat * list prop) :=
  match k with
  | O => Ok (offset, properties)
  | S k' =>
      if (length b <? offset + 1)%nat then Err ParserError
      else
        code <- py_index b offset;;
        let offset1 := (offset + 1)%nat in
        pdc <- py_index b offset1;;
        let offset2 := (offset1 + 1)%nat in
        let n := Z.to_nat pdc in
        if (length b <? offset2 + n)%nat then Err ParserError
        else
          parse_prop_loop b k' (offset2 + n)
            (properties ++ [mkprop code (py_slice b offset2 (offset2 + n))])
  end.

(** __parse_property_bytes, message.py:102-120. *)
Definition parse_property_bytes (b : list Z) (offset : nat) : res (nat * list prop) :=
  opc <- py_index b offset;;
  parse_prop_loop b (Z.to_nat opc) (offset + 1) [].

(** __is_read_write_message, message.py:122-127. *)
Definition is_read_write_message (esv : Z) : bool :=
  if is_write_read_request esv then true
  else if is_write_read_response esv then true
  else false.

(** parse_bytes, message.py:129-151.  The message is updated in place, so the new
    message is returned also when an exception is raised. *)
Definition parse_bytes (m : msg) (b : list Z) : msg * res bool :=
  if (length b <? FORMAT1_HEADER_SIZE)%nat then (m, Err ParserError)
  else
    match py_index b 0 with
    | Err e => (m, Err e)
    | Ok b0 =>
    if negb (b0 =? EHD1_ECHONET) then (m, Err ParserError)
    else
    match py_index b 1 with
    | Err e => (m, Err e)
    | Ok b1 =>
    if negb (b1 =? EHD2_FORMAT1) then (m, Err ParserError)
    else
      let m1 := set_TID (to_int (py_slice b 2 4)) m in
      let m2 := set_SEOJ (to_int (py_slice b 4 7)) m1 in
      let m3 := set_DEOJ (to_int (py_slice b 7 10)) m2 in
      match py_index b 10 with
      | Err e => (m3, Err e)
      | Ok esv =>
        let m4 := set_ESV esv m3 in
        if is_read_write_message esv then
          match parse_property_bytes b 11 with
          | Err e => (m4, Err e)
          | Ok (offset, ps) =>
            let m5 := set_sets ps m4 in
            match parse_property_bytes b offset with
            | Err e => (m5, Err e)
            | Ok (_, qs) => (set_gets qs m5, Ok true)
            end
          end
        else
          match parse_property_bytes b 11 with
          | Err e => (m4, Err e)
          | Ok (_, ps) => (set_props ps m4, Ok true)
          end
      end
    end
    end.

(** parse_hexstring, message.py:153-154. *)
Definition parse_hexstring (m : msg) (s : string) : msg * res bool :=
  match from_string s with
  | Err e => (m, Err e)
  | Ok b => parse_bytes m b
  end.

(** __append_property_bytes, message.py:156-161. *)
Fixpoint append_props (buf : list Z) (properties : list prop) : res (list Z) :=
  match properties with
  | [] => Ok buf
  | p :: r =>
      b1 <- ba_append buf (p_code p);;
      b2 <- ba_append b1 (zlen (p_data p));;
      append_props (b2 ++ p_data p) r
  end.
Definition append_property_bytes (buf : list Z) (properties : list prop) : res (list Z) :=
  b0 <- ba_append buf (zlen properties);;
  append_props b0 properties.

(** to_bytes, message.py:163-176.  Property data is taken to be bytes-like. *)
Definition to_bytes (m : msg) : res (list Z) :=
  let b := [EHD1_ECHONET; EHD2_FORMAT1] in
  let b := b ++ from_int_n (m_TID m) 2 in
  let b := b ++ from_int_n (m_SEOJ m) 3 in
  let b := b ++ from_int_n (m_DEOJ m) 3 in
  b <- ba_append b (m_ESV m);;
  if is_read_write_message (m_ESV m) then
    b <- append_property_bytes b (m_sets m);;
    append_property_bytes b (m_gets m)
  else
    append_property_bytes b (m_props m).

(** to_string, message.py:178-179. *)
Definition to_string (m : msg) : res string :=
  b <- to_bytes m;; Ok (to_hex_upper b).

(** Equality of byte strings. *)
Fixpoint bytes_eqb (a b : list Z) : bool :=
  match a, b with
  | [], [] => true
  | x :: a', y :: b' => (x =? y) && bytes_eqb a' b'
  | _, _ => false
  end.

(** __eq__ on two messages, message.py:58-61; raises if one of them cannot be encoded. *)
Definition msg_eq (a b : msg) : res bool :=
  x <- to_bytes a;; y <- to_bytes b;; Ok (bytes_eqb x y).

(** uecho.Message(msg), uecho/message.py:25-30. *)
Definition copy_msg (m : msg) : res msg :=
  b <- to_bytes m;;
  match parse_bytes new_msg b with
  | (_, Err e) => Err e
  | (c, Ok _) => Ok (set_to (m_to m) (set_from (m_from m) c))
  end.

(** NodeProfile.CODE, uecho/node_profile.py:29. *)
Definition NODE_PROFILE_CODE : Z := 0x0EF001.

(** is_node_profile_message, uecho/message.py:32-37.  [NodeProfile.CODE_READ_ONLY] is
    defined nowhere in /repo, so evaluating it raises AttributeError. *)
Definition is_node_profile_message (m : msg) : res bool :=
  if negb (m_ESV m =? NOTIFICATION) && negb (m_ESV m =? READ_RESPONSE) then Ok false
  else if negb (m_DEOJ m =? NODE_PROFILE_CODE) then Err AttributeError
  else Ok true.

(** Argument of uecho.Message.add_property and friends. *)
Inductive prop_arg :=
| PAProp (p : prop)                  (* uecho.Property *)
| PAInt (c : Z)
| PATuple2 (c : Z) (d : list Z)      (* (code, data) *)
| PATupleN                           (* tuple of another length *)
| PAOther.                           (* anything else, including protocol.Property *)

(** What __to_property returns: a property, None, or False. *)
Inductive to_prop_res := TPProp (p : prop) | TPNone | TPFalse.

(** __to_property, uecho/message.py:39-52. *)
Definition to_property (a : prop_arg) : to_prop_res :=
  match a with
  | PAProp p => TPProp p
  | PAInt c => TPProp (mkprop c [])
  | PATupleN => TPFalse
  | PATuple2 c d => TPProp (mkprop c d)
  | PAOther => TPNone
  end.

(** protocol Message.add_property on what __to_property returned, message.py:79-95. *)
Definition is_prop (t : to_prop_res) : option prop :=
  match t with TPProp p => Some p | _ => None end.

(** uecho.Message.add_property, uecho/message.py:54-66. *)
Definition add_property (a : prop_arg) (m : msg) : msg * bool :=
  match to_property a with
  | TPNone => (m, false)
  | t => match is_prop t with
         | None => (m, false)
         | Some p => (set_props (m_props m ++ [p]) m, true)
         end
  end.

(** uecho.Message.add_set_property, uecho/message.py:68-80. *)
Definition add_set_property (a : prop_arg) (m : msg) : msg * bool :=
  match to_property a with
  | TPNone => (m, false)
  | t => match is_prop t with
         | None => (m, false)
         | Some p => (set_sets (m_sets m ++ [p]) m, true)
         end
  end.

(** uecho.Message.add_get_property, uecho/message.py:82-94. *)
Definition add_get_property (a : prop_arg) (m : msg) : msg * bool :=
  match to_property a with
  | TPNone => (m, false)
  | t => match is_prop t with
         | None => (m, false)
         | Some p => (set_gets (m_gets m ++ [p]) m, true)
         end
  end.

(** SearchMessage(), uecho/messages.py:21-31 (0xD6 = SELF_NODE_INSTANCE_LIST_S). *)
Definition search_message : msg :=
  let m := set_ESV READ_REQUEST new_msg in
  let m := set_SEOJ NODE_PROFILE_CODE m in
  let m := set_DEOJ NODE_PROFILE_CODE m in
  fst (add_property (PAProp (mkprop 0xD6 [])) m).

(** ReadRequest, WriteRequest, WriteResponseRequiredRequest, WriteReadRequest,
    uecho/messages.py:34-67. *)
Definition request_message (esv deoj : Z) : msg :=
  set_DEOJ deoj (set_SEOJ NODE_PROFILE_CODE (set_ESV esv new_msg)).
Definition read_request (deoj : Z) : msg := request_message READ_REQUEST deoj.
Definition write_request (deoj : Z) : msg := request_message WRITE_REQUEST deoj.
Definition write_response_required_request (deoj : Z) : msg :=
  request_message WRITE_REQUEST_RESPONSE_REQUIRED deoj.
Definition write_read_request (deoj : Z) : msg := request_message WRITE_READ_REQUEST deoj.
