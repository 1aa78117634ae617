(** Model of the fields name, typ and size of properties, which the other files leave out:
    /repo/uecho/property.py:48-60, /repo/uecho/std/reader.py:39-50, and the places that create, add and
    copy properties.  A property has the three fields only if it was made by the class Property of
    std/reader.py (or if the application assigned them); the class Property of uecho/property.py declares
    them without values, so that reading them raises AttributeError.  (The field typ belongs to
    reader.Property only; an application that assigns name and size is taken to assign typ as well.) *)
From Verif Require Import PyBase BytesM MsgM PropM ObjM DbData DbM NameData BenchM LogM OutM.

(** An object and, for every key of its property table, the fields of the property under that key. *)
Record lobj := mklobj { lo_obj : obj; lo_lab : list (Z * option plabel) }.
Definition with_obj (o : obj) (x : lobj) : lobj := mklobj o (lo_lab x).

(** obj.get_property(code).name, .typ and .size, property.py:48-53, reader.py:39-47. *)
Definition prop_label (code : Z) (x : lobj) : res plabel :=
  match get_property code (lo_obj x) with
  | None => Err AttributeError
  | Some _ => match zget code (lo_lab x) with Some (Some l) => Ok l | _ => Err AttributeError end
  end.
Definition prop_name (code : Z) (x : lobj) : res string := match prop_label code x with Ok (n, _, _) => Ok n | Err e => Err e end.
Definition prop_typ (code : Z) (x : lobj) : res string := match prop_label code x with Ok (_, t, _) => Ok t | Err e => Err e end.
Definition prop_size (code : Z) (x : lobj) : res Z := match prop_label code x with Ok (_, _, z) => Ok z | Err e => Err e end.

(** self.__properties[prop.code] = prop, object.py:225. *)
Definition put_label (p : oprop) (l : option plabel) (t : list (Z * option plabel)) : list (Z * option plabel) := zset (op_code p) l t.
(** Object.add_property, object.py:222-227. *)
Definition l_add_base (p : oprop) (l : option plabel) (x : lobj) : lobj :=
  mklobj (fst (add_property_base (Some p) (lo_obj x))) (put_label p l (lo_lab x)).
(** The properties of an object with their fields, object.py:218-220. *)
Definition l_props (x : lobj) : list (oprop * option plabel) :=
  map (fun e => (snd e, match zget (fst e) (lo_lab x) with Some l => l | None => None end)) (o_props (lo_obj x)).
(** Object.copy, object.py:438-444; deepcopy copies the fields of a property that are there. *)
Definition l_copy (x : lobj) : lobj :=
  let o := lo_obj x in
  fold_left (fun acc e => l_add_base (fst e) (snd e) acc) (l_props x)
    (mklobj (set_o_name (o_name o) (set_o_code (o_code o) (new_object PNone))) []).

(** ** The tables: std/reader.py, std/objects.py, std/database.py *)
(** obj = Object(name, grp, cls); obj.add_property(Property(code, name, typ, size, get, set, anno)), one
    for each row; a row of the table is split between DbData.v and NameData.v. *)
Definition l_build (e : std_entry * name_entry) : lobj :=
  let '((name, grp, cls, rows), (_, _, labs)) := e in
  fold_left (fun x rl => l_add_base (row_property (fst rl)) (Some (snd (snd rl))) x) (combine rows labs) (mklobj (std_object name grp cls) []).
Definition l_table (t : list (std_entry * name_entry)) : list ((Z * Z) * lobj) :=
  fold_left (fun d e => kset (entry_key (fst e)) (l_build e) d) t [].
(** get_all_std_objects, std/objects.py:27-31. *)
Definition l_std_objects : list ((Z * Z) * lobj) :=
  dupdate key_eqb (dupdate key_eqb [] (l_table (combine scsl_table scsl_names))) (l_table (combine mra_table mra_names)).
(** Database.get_object, std/database.py:53-63. *)
Definition l_get_object (a : pycode) : option lobj :=
  let '(code, ok) := set_code CODE_UNKNOWN a in
  if negb ok then None else kget (group_code code, class_code code) l_std_objects.

Section Names.
Context {PS : PySet}.
(** SuperObject.add_property, super_object.py:31-35; the property is in the table when the maps are
    made, whether or not that raises. *)
Definition l_add_super (p : oprop) (l : option plabel) (x : lobj) : lobj * res bool :=
  let '(o, r) := add_property_super (Some p) (lo_obj x) in (mklobj o (put_label p l (lo_lab x)), r).
(** obj.add_property(p) for the class of the object. *)
Definition l_add (p : oprop) (l : option plabel) (x : lobj) : lobj * res bool :=
  match o_cls (lo_obj x) with CObject => (l_add_base p l x, Ok true) | _ => l_add_super p l x end.
(** _set_object_properties, super_object.py:37-44. *)
Fixpoint l_add_all (ps : list (oprop * option plabel)) (x : lobj) : lobj * res bool :=
  match ps with
  | [] => (x, Ok true)
  | (p, l) :: r => match l_add_super p l x with (x', Err e) => (x', Err e) | (x', Ok _) => l_add_all r x' end
  end.
Definition l_copy_std (s : option lobj) (x : lobj) : lobj * res unit :=
  match s with
  | None => (x, Ok tt)
  | Some src =>
    match l_add_all (l_props src) (with_obj (set_o_name (o_name (lo_obj src)) (lo_obj x)) x) with
    | (x', Err e) => (x', Err e)
    | (x', Ok _) => (x', Ok tt)
    end
  end.
Definition l_update_maps (x : lobj) : lobj * res bool :=
  let '(o, r) := update_property_maps (lo_obj x) in (with_obj o x, r).
(** StandardObject.set_code, std/object.py:28-47. *)
Definition l_standard_set_code (a : pycode) (x : lobj) : lobj * res bool :=
  let '(c, ok) := set_code (o_code (lo_obj x)) a in
  let x := with_obj (set_o_code c (lo_obj x)) x in
  if negb ok then (x, Ok false)
  else match l_copy_std (l_get_object (PInt SUPER_CODE)) x with
       | (x, Err e) => (x, Err e)
       | (x, Ok _) => match l_copy_std (l_get_object a) x with (x, Err e) => (x, Err e) | (x, Ok _) => l_update_maps x end
       end.
(** Profile.set_code, profile.py:31-45. *)
Definition l_profile_set_code (a : pycode) (x : lobj) : lobj * res bool :=
  let '(c, ok) := set_code (o_code (lo_obj x)) a in
  let x := with_obj (set_o_code c (lo_obj x)) x in
  if negb ok then (x, Ok false)
  else match l_copy_std (l_get_object a) x with (x, Err e) => (x, Err e) | (x, Ok _) => l_update_maps x end.
(** StandardObject(code) and Device(code), std/object.py:24-26, device.py:22-23. *)
Definition l_new_standard (a : pycode) : lobj * res unit :=
  match l_standard_set_code a (mklobj (mkobj CODE_UNKNOWN "" [] HSuper 0 [] CStandard) []) with (x, Err e) => (x, Err e) | (x, Ok _) => (x, Ok tt) end.
(** Profile(code), profile.py:24-29. *)
Definition l_new_profile (a : pycode) : lobj * res unit :=
  match l_copy_std (l_get_object (PInt SUPER_CODE)) (mklobj (mkobj CODE_UNKNOWN "" [] HSuper 0 [] CProfile) []) with
  | (x, Err e) => (x, Err e)
  | (x, Ok _) => match l_profile_set_code a x with (x, Err e) => (x, Err e) | (x, Ok _) => (x, Ok tt) end
  end.

(** What an application and the requests of others do to an object. *)
Inductive lop :=
| OSet (code : Z) (data : list Z)       (* set_property_data *)
| OAdd (p : oprop) (l : option plabel)   (* add_property; [l]: the fields, if they were assigned *)
| OCode (a : pycode)                    (* set_code *)
| OMsg (m : msg).                       (* message_received *)
Definition l_set_code (a : pycode) (x : lobj) : lobj * res bool :=
  match o_cls (lo_obj x) with
  | CStandard => l_standard_set_code a x
  | CProfile => l_profile_set_code a x
  | _ => let '(c, ok) := set_code (o_code (lo_obj x)) a in (with_obj (set_o_code c (lo_obj x)) x, Ok ok)
  end.
(** The object afterwards and whether nothing was raised. *)
Definition l_step (op : lop) (x : lobj) : lobj * bool :=
  let fine {A} (r : res A) := match r with Ok _ => true | Err _ => false end in
  match op with
  | OSet code data => (with_obj (fst (set_property_data code data (lo_obj x))) x, true)
  | OAdd p l => let '(x', r) := l_add p l x in (x', fine r)
  | OCode a => let '(x', r) := l_set_code a x in (x', fine r)
  | OMsg m => let '(o, _, r) := obj_message_received (lo_obj x) m in (with_obj o x, fine r)
  end.
Fixpoint l_run (ops : list lop) (x : lobj) : lobj * list bool :=
  match ops with
  | [] => (x, [])
  | op :: r => let '(x1, b) := l_step op x in let '(x2, bs) := l_run r x1 in (x2, b :: bs)
  end.
End Names.

(** ** The tools with -v, uechosearch.py:74-97 and uechobench.py:59-82: the lines of one node, and the
    exception of len(prop.name) if there is no name; then the lines are those printed before. *)
Fixpoint l_prop_lines (x : lobj) (j k : nat) (ps : list oprop) (ds : list (list (list Z))) : list string * res (list (list (list Z))) :=
  match ps with
  | [] => ([], Ok ds)
  | p :: r =>
    if negb (is_read_required p) then l_prop_lines x j (S k) r ds
    else match prop_name (op_code p) x with
         | Err e => ([], Err e)
         | Ok name =>
           match ds with
           | [] => ([], Ok [])
           | d :: ds' => let '(ls, rest) := l_prop_lines x j (S k) r ds' in (prop_line j k p name d :: ls, rest)
           end
         end
  end.
Fixpoint l_obj_lines (j : nat) (xs : list lobj) (ds : list (list (list Z))) : list string * res unit :=
  match xs with
  | [] => ([], Ok tt)
  | x :: r =>
    match l_prop_lines x j 0 (dvals (o_props (lo_obj x))) ds with
    | (ls, Err e) => (obj_line j (lo_obj x) :: ls, Err e)
    | (ls, Ok rest) => let '(ls', q) := l_obj_lines (S j) r rest in (obj_line j (lo_obj x) :: ls ++ ls', q)
    end
  end.
(** One node, the [i]-th: uechobench.py:55-59 and uechosearch.py:60-74. *)
Definition l_node_lines (i : nat) (ip : string) (xs : list lobj) (first : string) (ds : list (list (list Z))) : list string * res unit :=
  let '(ls, q) := l_obj_lines 0 xs ds in
  ((if (0 <? i)%nat then [""%string] else []) ++ (ljust 15 ip ++ " " ++ first)%string :: ls, q).
