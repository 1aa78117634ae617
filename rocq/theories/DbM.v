(** Model of /repo/uecho/std/reader.py, objects.py, database.py, object.py,
    /repo/uecho/manufacturer.py, /repo/uecho/profile.py, /repo/uecho/device.py and
    /repo/uecho/node_profile.py.
    The module-level tables are constants: code that mutates the standard objects returned
    by Database.get_object is not modelled. *)
From Verif Require Import PyBase BytesM MsgM PropM ObjM DbData.

(** ** reader.py *)

(** val.lower() on ASCII text. *)
Definition lower_ascii (c : ascii) : ascii :=
  let n := N_of_ascii c in
  if (N.leb 65 n && N.leb n 90)%bool then ascii_of_N (n + 32) else c.
Fixpoint lower (s : string) : string :=
  match s with
  | EmptyString => EmptyString
  | String c r => String (lower_ascii c) (lower r)
  end.

(** An access rule argument: int, str or anything else. *)
Inductive rule := RInt (v : Z) | RStr (s : string) | ROther.

(** Property.__to_attribute, std/reader.py:52-61. *)
Definition to_attribute (val : rule) : Z :=
  match val with
  | RInt v => v
  | RStr s =>
      if (String.eqb (lower s) "mandatory") || (String.eqb (lower s) "required") then REQUIRED
      else if String.eqb (lower s) "optional" then OPTIONAL
      else PROHIBITED
  | ROther => PROHIBITED
  end.

(** reader.Property(code, ..., get, set, anno), std/reader.py:42-50. *)
Definition std_property (code : Z) (get set anno : rule) : oprop :=
  mkoprop code [] (to_attribute get) (to_attribute set) (to_attribute anno).

(** reader.Object(name, grp, cls), std/reader.py:32-36. *)
Definition std_object (name : string) (grp cls : Z) : obj :=
  let o := set_o_name name (new_object PNone) in
  set_o_code (set_class_code cls (set_group_code grp (o_code o))) o.

(** One block of the table files (see DbData.v). *)
Definition row_property (r : row) : oprop :=
  let '(code, (g, s, a)) := r in std_property code (RStr g) (RStr s) (RStr a).
Definition build_object (e : std_entry) : obj :=
  let '(name, grp, cls, rows) := e in
  fold_left (fun o r => fst (add_property_base (Some (row_property r)) o)) rows
    (std_object name grp cls).
Definition entry_key (e : std_entry) : Z * Z := let '(_, grp, cls, _) := e in (grp, cls).

(** ** objects.py and database.py *)

Definition key_eqb (a b : Z * Z) : bool := (fst a =? fst b) && (snd a =? snd b).
Notation kget := (dget key_eqb).
Notation kset := (dset key_eqb).

(** A module's table built by successive assignments. *)
Definition build_table (t : list std_entry) : list ((Z * Z) * obj) :=
  fold_left (fun d e => kset (entry_key e) (build_object e) d) t [].

(** get_all_std_objects, std/objects.py:27-31. *)
Definition all_std_objects : list ((Z * Z) * obj) :=
  dupdate key_eqb (dupdate key_eqb [] (build_table scsl_table)) (build_table mra_table).

(** get_all_std_manufactures, std/manufacturers.py:25-246 (name of each code). *)
Definition all_manufacturers : list (Z * string) :=
  fold_left (fun d e => zset (fst e) (snd e) d) manufacturer_table [].

(** Database.get_manufacturer(_name), std/database.py:33-51.  The argument is an int, bytes
    (or bytearray), or anything else.  The result stands for the Manufacture with that code. *)
Inductive man_arg := MAInt (c : Z) | MABytes (b : list Z) | MAOther.
Definition get_manufacturer (a : man_arg) : option (Z * string) :=
  let man_code := match a with MAInt c => c | MABytes b => to_int b | MAOther => 0 end in
  match zget man_code all_manufacturers with
  | Some n => Some (man_code, n)
  | None => None
  end.
Definition get_manufacturer_name (a : man_arg) : option string :=
  match get_manufacturer a with Some m => Some (snd m) | None => None end.

(** Database.get_object, std/database.py:53-63. *)
Definition db_get_object (a : pycode) : option obj :=
  let '(code, ok) := set_code CODE_UNKNOWN a in
  if negb ok then None
  else kget (group_code code, class_code code) all_std_objects.

(** ** Standard objects, profiles, node profile *)
Section Std.
Context {PS : PySet}.

(** Sequencing of methods that return the object also when they raise. *)
Definition obind {A B} (x : obj * res A) (f : obj -> A -> obj * res B) : obj * res B :=
  match x with
  | (o, Ok a) => f o a
  | (o, Err e) => (o, Err e)
  end.

(** "if isinstance(std_obj, Object): self._set_object_properties(std_obj)". *)
Definition copy_std (s : option obj) (o : obj) : obj * res unit :=
  match s with
  | None => (o, Ok tt)
  | Some src => obind (set_object_properties src o) (fun o' _ => (o', Ok tt))
  end.

Definition SUPER_CODE : Z := 0x000000.

(** StandardObject.set_code, std/object.py:28-47. *)
Definition standard_set_code (a : pycode) (o : obj) : obj * res bool :=
  let '(c, ok) := set_code (o_code o) a in
  let o := set_o_code c o in
  if negb ok then (o, Ok false)
  else
    obind (copy_std (db_get_object (PInt SUPER_CODE)) o) (fun o _ =>
    obind (copy_std (db_get_object a) o) (fun o _ =>
    update_property_maps o)).

(** StandardObject(code) / Device(code), std/object.py:24-26, device.py:22-23. *)
Definition new_standard (a : pycode) : obj * res unit :=
  let o := mkobj CODE_UNKNOWN "" [] HSuper 0 [] CStandard in
  obind (standard_set_code a o) (fun o _ => (o, Ok tt)).

(** Profile.set_code, profile.py:31-45. *)
Definition profile_set_code (a : pycode) (o : obj) : obj * res bool :=
  let '(c, ok) := set_code (o_code o) a in
  let o := set_o_code c o in
  if negb ok then (o, Ok false)
  else
    obind (copy_std (db_get_object a) o) (fun o _ =>
    update_property_maps o).

(** Profile(code), profile.py:24-29. *)
Definition new_profile (a : pycode) : obj * res unit :=
  let o := mkobj CODE_UNKNOWN "" [] HSuper 0 [] CProfile in
  obind (copy_std (db_get_object (PInt SUPER_CODE)) o) (fun o _ =>
  obind (profile_set_code a o) (fun o _ => (o, Ok tt))).

(** obj.set_code(code) for the class of the object. *)
Definition obj_set_code (a : pycode) (o : obj) : obj * res bool :=
  match o_cls o with
  | CStandard => standard_set_code a o
  | CProfile => profile_set_code a o
  | _ => let '(c, ok) := set_code (o_code o) a in (set_o_code c o, Ok ok)
  end.

(** ** node_profile.py *)

Definition NODE_PROFILE_READONLY_CODE : Z := 0x0EF002.

(** set_property_integer / set_property_data as statements. *)
Definition stmt_data (code : Z) (data : list Z) (o : obj) : obj := fst (set_property_data code data o).

(** The random bytes drawn by NodeProfile.__init__ (node_profile.py:77-87): 13 bytes of the
    identification number and two bytes of the unique identifier, each from randint(1, 0xFF). *)
Record np_random := mkrnd { rnd_id : list Z; rnd_u1 : Z; rnd_u2 : Z }.

(** ECHONET_LITE_VERSION, const.py:15. *)
Definition ECHONET_LITE_VERSION : Z := 0x010D0100.

(** __update_initial_properties, __update_id_number, __update_unique_id,
    node_profile.py:70-87. *)
Definition np_update_initial (r : np_random) (o : obj) : obj :=
  let o := stmt_data 0x80 (from_int_n 0x30 1) o in
  let o := stmt_data 0x82 (from_int_n ECHONET_LITE_VERSION 4) o in
  let o := stmt_data 0x83 ([0xFE; 0; 0; 0] ++ rnd_id r) o in
  stmt_data 0xBF [Z.land (rnd_u1 r) 0xC0; rnd_u2 r] o.

(** __is_node_profile_object, node_profile.py:89-94. *)
Definition is_node_profile_object (code : Z) : bool :=
  if code =? NODE_PROFILE_CODE then true
  else if code =? NODE_PROFILE_READONLY_CODE then true
  else false.

(** __update_instance_properties, node_profile.py:96-115; only the codes of the objects
    are used. *)
Definition np_instance_loop (codes : list Z) : Z * list Z :=
  fold_left (fun st code =>
    let '(cnt, l) := st in
    if is_node_profile_object code then (cnt, l)
    else (cnt + 1, l ++ from_int_n code 3)) codes (0, []).
Definition np_update_instances (codes : list Z) (o : obj) : obj * bool :=
  let '(cnt, l) := np_instance_loop codes in
  match set_property_data 0xD3 (from_int_n cnt 3) o with
  | (o1, false) => (o1, false)
  | (o1, true) =>
    let bytes := from_int_n cnt 1 ++ l in
    match set_property_data 0xD5 bytes o1 with
    | (o2, false) => (o2, false)
    | (o2, true) => set_property_data 0xD6 bytes o2
    end
  end.

(** The search in class_list, node_profile.py:124-128. *)
Fixpoint has_same_class (g c : Z) (class_list : list Z) : bool :=
  match class_list with
  | x :: y :: r => if (x =? g) && (y =? c) then true else has_same_class g c r
  | _ => false
  end.
(** __update_class_properties, node_profile.py:117-141. *)
Definition np_class_loop (codes : list Z) : Z * list Z :=
  fold_left (fun st code =>
    let '(cnt, l) := st in
    let cnt := cnt + 1 in
    if is_node_profile_object code then (cnt, l)
    else if has_same_class (group_code code) (class_code code) l then (cnt, l)
    else (cnt, l ++ [group_code code; class_code code])) codes (0, []).
Definition np_update_classes (codes : list Z) (o : obj) : obj * bool :=
  let '(cnt, l) := np_class_loop codes in
  match set_property_data 0xD4 (from_int_n cnt 2) o with
  | (o1, false) => (o1, false)
  | (o1, true) => set_property_data 0xD7 (from_int_n cnt 1 ++ l) o1
  end.

(** NodeProfile._update_map_properties, node_profile.py:143-150. *)
Definition np_update_map (codes : list Z) (o : obj) : obj * res bool :=
  match np_update_instances codes o with
  | (o1, false) => (o1, Ok false)
  | (o1, true) =>
    match np_update_classes codes o1 with
    | (o2, false) => (o2, Ok false)
    | (o2, true) => update_property_maps o2
    end
  end.

(** NodeProfile(), node_profile.py:64-68. *)
Definition new_node_profile (r : np_random) : obj * res unit :=
  obind (new_profile (PInt NODE_PROFILE_CODE)) (fun o _ =>
  let o := set_request_handler HSuper o in
  let o := np_update_initial r o in
  obind (np_update_map [o_code o] o) (fun o _ => (o, Ok tt))).

(** NodeProfileReadOnly(), node_profile.py:153-161: property_write_requested is overridden. *)
Definition new_node_profile_readonly (r : np_random) : obj * res unit :=
  obind (new_node_profile r) (fun o _ =>
  obind (profile_set_code (PInt NODE_PROFILE_READONLY_CODE) (set_o_handler HReadOnly o))
    (fun o _ => (o, Ok tt))).

End Std.
