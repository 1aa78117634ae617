(** Model of /repo/uecho/property.py (class Property).
    Not modelled: the fields name, size, typ, anno_status and the back reference [object]
    (send_message/post_message of a property are modelled in CtrlM.v). *)
From Verif Require Import PyBase BytesM MsgM.

(** Property, property.py:30-58: code and data (protocol/property.py:16-26) and attrs. *)
Record oprop := mkoprop {
  op_code : Z; op_data : list Z; op_get : Z; op_set : Z; op_anno : Z }.

(** Constants, property.py:34-47. *)
Definition PROPERTYMAP_FORMAT1_MAX_SIZE : Z := 15.
Definition PROPERTYMAP_FORMAT2_MAP_SIZE : nat := 16.
Definition PROP_CODE_MIN : Z := 0x80.
Definition ATTR_GET : Z := 0.
Definition ATTR_SET : Z := 1.
Definition ATTR_ANNO : Z := 2.
Definition PROHIBITED : Z := 0.
Definition REQUIRED : Z := 1.
Definition OPTIONAL : Z := 2.

(** Property(code, data), property.py:55-58. *)
Definition new_property (code : Z) (data : list Z) : oprop :=
  mkoprop code data PROHIBITED PROHIBITED PROHIBITED.

Definition set_op_data (d : list Z) (p : oprop) : oprop :=
  mkoprop (op_code p) d (op_get p) (op_set p) (op_anno p).

(** set_attribute, property.py:60-61: attrs[typ] = attr on a list of length 3, so a
    negative index counts from the end and other indices raise IndexError. *)
Definition set_attribute (typ attr : Z) (p : oprop) : oprop * res unit :=
  if (typ =? ATTR_GET) || (typ =? -3) then
    (mkoprop (op_code p) (op_data p) attr (op_set p) (op_anno p), Ok tt)
  else if (typ =? ATTR_SET) || (typ =? -2) then
    (mkoprop (op_code p) (op_data p) (op_get p) attr (op_anno p), Ok tt)
  else if (typ =? ATTR_ANNO) || (typ =? -1) then
    (mkoprop (op_code p) (op_data p) (op_get p) (op_set p) attr, Ok tt)
  else (p, Err IndexError).

(** get_attribute, property.py:63-64. *)
Definition get_attribute (typ : Z) (p : oprop) : res Z :=
  if (typ =? ATTR_GET) || (typ =? -3) then Ok (op_get p)
  else if (typ =? ATTR_SET) || (typ =? -2) then Ok (op_set p)
  else if (typ =? ATTR_ANNO) || (typ =? -1) then Ok (op_anno p)
  else Err IndexError.

(** __is_attribute_enabled, property.py:66-71. *)
Definition attribute_enabled (val : Z) : bool :=
  if val =? REQUIRED then true else if val =? OPTIONAL then true else false.
(** __is_attribute_required, property.py:73-76. *)
Definition attribute_required (val : Z) : bool :=
  if val =? REQUIRED then true else false.
(** is_mandatory, property.py:78-82: loop over attrs. *)
Definition is_mandatory (p : oprop) : bool :=
  existsb (fun attr => attr =? REQUIRED) [op_get p; op_set p; op_anno p].
(** is_read_enabled ... is_announce_required, property.py:84-100. *)
Definition is_read_enabled (p : oprop) : bool := attribute_enabled (op_get p).
Definition is_write_enabled (p : oprop) : bool := attribute_enabled (op_set p).
Definition is_announce_enabled (p : oprop) : bool := attribute_enabled (op_anno p).
Definition is_read_required (p : oprop) : bool := attribute_required (op_get p).
Definition is_write_required (p : oprop) : bool := attribute_required (op_set p).
Definition is_announce_required (p : oprop) : bool := attribute_required (op_anno p).

(** number, property.py:131-133. *)
Definition prop_number (p : oprop) : Z := to_int (op_data p).

(** is_propertymap_description_format1, property.py:22-23. *)
Definition is_format1 (n : Z) : bool := n <=? PROPERTYMAP_FORMAT1_MAX_SIZE.

(** Result of property_map_codes: None, False or a list. *)
Inductive map_res := MapNone | MapFalse | MapCodes (l : list Z).

(** Inner body of the format 2 loops, property.py:159-169; the state is
    (prop_codes, prop_code_idx). *)
Definition map2_step (data : list Z) (cnt : Z) (i : nat) (st : list Z * nat) (j : nat)
  : list Z * nat :=
  let '(codes, idx) := st in
  let prop_byte_code := nth (i + 1) data 0 in
  let prop_byte_bit := Z.land (Z.shiftl 1 (Z.of_nat j)) 0x0F in
  if Z.land prop_byte_code prop_byte_bit =? 0 then st
  else if cnt <=? Z.of_nat idx then st
  else
    let code := 0x10 * Z.of_nat j + PROP_CODE_MIN + Z.of_nat i in
    (upd codes idx code, S idx).

(** property_map_codes, property.py:135-170 (on the data of the property). *)
Definition property_map_codes (data : list Z) : map_res :=
  match data with
  | [] => MapNone
  | cnt :: _ =>
      if is_format1 cnt then
        if negb (zlen data =? cnt + 1) then MapFalse
        else MapCodes (map (fun n => nth (n + 1) data 0) (seq 0 (Z.to_nat cnt)))
      else if negb (length data =? PROPERTYMAP_FORMAT2_MAP_SIZE + 1)%nat then MapNone
      else
        MapCodes (fst (fold_left
          (fun st i => fold_left (map2_step data cnt i) (seq 0 8) st)
          (seq 0 PROPERTYMAP_FORMAT2_MAP_SIZE) (repeat 0 (Z.to_nat cnt), O)))
  end.
