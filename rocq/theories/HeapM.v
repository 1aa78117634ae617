(** Model of objects and properties as Python keeps them: Property and Object instances live on a
    heap, dictionaries hold references, and copy.deepcopy makes new instances.
    /repo/uecho/object.py, property.py, super_object.py, profile.py, std/object.py, std/database.py.

    The other models treat an object as a value that contains its properties; here this is not
    assumed.  Handlers are none or built-in ones; obj.node is not kept. *)
From Verif Require Import PyBase BytesM EsvM MsgM PropM ObjM DbData DbM.

(** A Property instance: code, data, attributes, and the reference [object] (property.py:53-58). *)
Definition hprop : Type := oprop * option nat.
(** An Object instance: its fields (without properties) and the dictionary __properties, from codes
    to references of Property instances (object.py:85-98). *)
Record hobj := mkho { ho_val : obj; ho_dict : list (Z * nat) }.
Record heap := mkheap { h_props : list hprop; h_objs : list hobj }.

Definition nil_prop : hprop := (mkoprop 0 [] 0 0 0, None).
Definition nil_obj : hobj := mkho (new_object PNone) [].
(** Access through references. *)
Definition hval (h : heap) (l : nat) : oprop := fst (nth l (h_props h) nil_prop).
Definition howner (h : heap) (l : nat) : option nat := snd (nth l (h_props h) nil_prop).
Definition hobj_at (h : heap) (i : nat) : hobj := nth i (h_objs h) nil_obj.
Definition put_prop (l : nat) (p : hprop) (h : heap) : heap := mkheap (upd (h_props h) l p) (h_objs h).
Definition put_val (l : nat) (p : oprop) (h : heap) : heap := put_prop l (p, howner h l) h.
Definition put_hobj (i : nat) (o : hobj) (h : heap) : heap := mkheap (h_props h) (upd (h_objs h) i o).
(** New instances. *)
Definition alloc_prop (p : hprop) (h : heap) : heap * nat := (mkheap (h_props h ++ [p]) (h_objs h), length (h_props h)).
Definition alloc_obj (o : hobj) (h : heap) : heap * nat := (mkheap (h_props h) (h_objs h ++ [o]), length (h_objs h)).

(** The position of a reference in a list (the memo of deepcopy). *)
Fixpoint position (l : nat) (s : list nat) : nat :=
  match s with [] => O | x :: r => if (x =? l)%nat then O else S (position l r) end.
(** Property.copy, property.py:172-176: copy.deepcopy copies the property, the object it refers to,
    and that object's properties.  (Of an object one of whose properties refers to yet another
    object, Python would copy that too.) *)
Definition deepcopy (l : nat) (h : heap) : heap * nat :=
  match howner h l with
  | None => alloc_prop (hval h l, None) h
  | Some i =>
      let o := hobj_at h i in
      let own := map snd (ho_dict o) in
      let copied := if existsb (Nat.eqb l) own then own else own ++ [l] in
      let n := length (h_props h) in let m := length (h_objs h) in
      (mkheap (h_props h ++ map (fun x => (hval h x, Some m)) copied)
              (h_objs h ++ [mkho (ho_val o) (map (fun kx => (fst kx, (n + position (snd kx) copied)%nat)) (ho_dict o))]),
       (n + position l copied)%nat)
  end.

(** get_property, object.py:229-233. *)
Definition h_get (code : Z) (i : nat) (h : heap) : option nat := zget code (ho_dict (hobj_at h i)).
(** get_property_data, object.py:235-239. *)
Definition h_get_data (code : Z) (i : nat) (h : heap) : option (list Z) :=
  match h_get code i h with Some l => Some (op_data (hval h l)) | None => None end.
(** prop.data = data *)
Definition h_put_data (l : nat) (data : list Z) (h : heap) : heap := put_val l (set_op_data data (hval h l)) h.
(** set_property_data, object.py:247-252. *)
Definition h_set_data (code : Z) (data : list Z) (i : nat) (h : heap) : heap * bool :=
  match h_get code i h with
  | None => (h, false)
  | Some l => (h_put_data l data h, true)
  end.
(** prop.set_attribute(typ, attr), property.py:60-61. *)
Definition h_set_attribute (l : nat) (typ attr : Z) (h : heap) : heap * res unit :=
  let '(p, r) := set_attribute typ attr (hval h l) in (put_val l p h, r).
(** Object.add_property, object.py:222-227. *)
Definition h_add_base (l : nat) (i : nat) (h : heap) : heap :=
  let o := hobj_at h i in
  let h := put_hobj i (mkho (ho_val o) (zset (op_code (hval h l)) l (ho_dict o))) h in
  put_prop l (hval h l, Some i) h.

Section Super.
Context {PS : PySet}.

(** __set_property_map_property, super_object.py:46-75. *)
Definition h_set_map (code : Z) (prop_map : list Z) (i : nat) (h : heap) : heap * res bool :=
  match h_get code i h with
  | None => (h, Ok false)
  | Some _ =>
    match bytes_of (zlen prop_map :: prop_map) with
    | Err e => (h, Err e)
    | Ok map_bytes =>
        if is_format1 (zlen prop_map) then
          let '(h', r) := h_set_data code map_bytes i h in (h', Ok r)
        else
          match bytes_of (Z.of_nat PROPERTYMAP_FORMAT2_MAP_SIZE :: map2_encode prop_map) with
          | Err e => (h, Err e)
          | Ok map_bytes =>
              let '(h', r) := h_set_data code map_bytes i h in (h', Ok r)
          end
    end
  end.
(** self.properties, object.py:218-220: through the references. *)
Definition h_codes (f : oprop -> bool) (i : nat) (h : heap) : list Z :=
  map op_code (filter f (map (hval h) (map snd (ho_dict (hobj_at h i))))).
(** _update_property_map_properties, super_object.py:77-97. *)
Definition h_update_maps (i : nat) (h : heap) : heap * res bool :=
  let anno_map := set_list (h_codes is_announce_required i h) in
  let get_map := set_list (h_codes is_read_enabled i h) in
  let set_map := set_list (h_codes is_write_enabled i h) in
  match h_set_map ANNO_PROPERTY_MAP anno_map i h with
  | (h1, Err e) => (h1, Err e)
  | (h1, Ok false) => (h1, Ok false)
  | (h1, Ok true) =>
    match h_set_map GET_PROPERTY_MAP get_map i h1 with
    | (h2, Err e) => (h2, Err e)
    | (h2, Ok false) => (h2, Ok false)
    | (h2, Ok true) => h_set_map SET_PROPERTY_MAP set_map i h2
    end
  end.
(** SuperObject.add_property, super_object.py:31-35. *)
Definition h_add_super (l : nat) (i : nat) (h : heap) : heap * res bool :=
  match h_update_maps i (h_add_base l i h) with
  | (h2, Err e) => (h2, Err e)
  | (h2, Ok _) => (h2, Ok true)
  end.
(** obj.add_property(prop) for the class of the object. *)
Definition h_add (l : nat) (i : nat) (h : heap) : heap * res bool :=
  match o_cls (ho_val (hobj_at h i)) with
  | CObject => (h_add_base l i h, Ok true)
  | _ => h_add_super l i h
  end.
(** _set_object_properties, super_object.py:37-44: "for obj_prop in obj.properties:
    prop = obj_prop.copy(); self.add_property(prop)". *)
Fixpoint h_add_all (src : list nat) (i : nat) (h : heap) : heap * res bool :=
  match src with
  | [] => (h, Ok true)
  | l :: r =>
      let '(h1, l') := deepcopy l h in
      match h_add_super l' i h1 with
      | (h2, Err e) => (h2, Err e)
      | (h2, Ok _) => h_add_all r i h2
      end
  end.
Definition h_set_object_properties (src i : nat) (h : heap) : heap * res bool :=
  let s := hobj_at h src in let o := hobj_at h i in
  h_add_all (map snd (ho_dict s)) i (put_hobj i (mkho (set_o_name (o_name (ho_val s)) (ho_val o)) (ho_dict o)) h).

Definition hbind {A B} (x : heap * res A) (f : heap -> A -> heap * res B) : heap * res B :=
  match x with
  | (h, Ok a) => f h a
  | (h, Err e) => (h, Err e)
  end.

(** The tables of the database: references to the objects the modules created when they were imported. *)
Definition tables := list ((Z * Z) * nat).
(** Database.get_object, std/database.py:53-63. *)
Definition h_db_get (db : tables) (a : pycode) : option nat :=
  let '(code, ok) := set_code CODE_UNKNOWN a in
  if negb ok then None
  else kget (group_code code, class_code code) db.
Definition h_copy_std (s : option nat) (i : nat) (h : heap) : heap * res unit :=
  match s with
  | None => (h, Ok tt)
  | Some src => hbind (h_set_object_properties src i h) (fun h _ => (h, Ok tt))
  end.
Definition h_put_code (c : Z) (i : nat) (h : heap) : heap :=
  let o := hobj_at h i in put_hobj i (mkho (set_o_code c (ho_val o)) (ho_dict o)) h.
(** StandardObject.set_code, std/object.py:28-47. *)
Definition h_standard_set_code (db : tables) (a : pycode) (i : nat) (h : heap) : heap * res bool :=
  let '(c, ok) := set_code (o_code (ho_val (hobj_at h i))) a in
  let h := h_put_code c i h in
  if negb ok then (h, Ok false)
  else
    hbind (h_copy_std (h_db_get db (PInt SUPER_CODE)) i h) (fun h _ =>
    hbind (h_copy_std (h_db_get db a) i h) (fun h _ =>
    h_update_maps i h)).
(** Profile.set_code, profile.py:31-45. *)
Definition h_profile_set_code (db : tables) (a : pycode) (i : nat) (h : heap) : heap * res bool :=
  let '(c, ok) := set_code (o_code (ho_val (hobj_at h i))) a in
  let h := h_put_code c i h in
  if negb ok then (h, Ok false)
  else
    hbind (h_copy_std (h_db_get db a) i h) (fun h _ =>
    h_update_maps i h).
(** Object(code), object.py:91-98; SuperObject(code), super_object.py:27-29. *)
Definition h_new (o : obj) (h : heap) : heap * nat := alloc_obj (mkho o []) h.
(** StandardObject(code), std/object.py:24-26. *)
Definition h_new_standard (db : tables) (a : pycode) (h : heap) : heap * nat * res unit :=
  let '(h, i) := h_new (mkobj CODE_UNKNOWN "" [] HSuper 0 [] CStandard) h in
  let '(h, r) := hbind (h_standard_set_code db a i h) (fun h _ => (h, Ok tt)) in (h, i, r).
(** Profile(code), profile.py:24-29. *)
Definition h_new_profile (db : tables) (a : pycode) (h : heap) : heap * nat * res unit :=
  let '(h, i) := h_new (mkobj CODE_UNKNOWN "" [] HSuper 0 [] CProfile) h in
  let '(h, r) := hbind (h_copy_std (h_db_get db (PInt SUPER_CODE)) i h) (fun h _ =>
    hbind (h_profile_set_code db a i h) (fun h _ => (h, Ok tt))) in (h, i, r).
(** NodeProfile, node_profile.py:70-161: the fields and the random values as in DbM.v. *)
Definition h_set_handler (x : handler) (i : nat) (h : heap) : heap :=
  let o := hobj_at h i in put_hobj i (mkho (set_o_handler x (ho_val o)) (ho_dict o)) h.
Definition h_np_initial (r : np_random) (i : nat) (h : heap) : heap :=
  let h := fst (h_set_data 0x80 (from_int_n 0x30 1) i h) in
  let h := fst (h_set_data 0x82 (from_int_n ECHONET_LITE_VERSION 4) i h) in
  let h := fst (h_set_data 0x83 ([0xFE; 0; 0; 0] ++ rnd_id r) i h) in
  fst (h_set_data 0xBF [Z.land (rnd_u1 r) 0xC0; rnd_u2 r] i h).
Definition h_np_instances (codes : list Z) (i : nat) (h : heap) : heap * bool :=
  let '(cnt, l) := np_instance_loop codes in
  match h_set_data 0xD3 (from_int_n cnt 3) i h with
  | (h1, false) => (h1, false)
  | (h1, true) =>
    let bytes := from_int_n cnt 1 ++ l in
    match h_set_data 0xD5 bytes i h1 with
    | (h2, false) => (h2, false)
    | (h2, true) => h_set_data 0xD6 bytes i h2
    end
  end.
Definition h_np_classes (codes : list Z) (i : nat) (h : heap) : heap * bool :=
  let '(cnt, l) := np_class_loop codes in
  match h_set_data 0xD4 (from_int_n cnt 2) i h with
  | (h1, false) => (h1, false)
  | (h1, true) => h_set_data 0xD7 (from_int_n cnt 1 ++ l) i h1
  end.
Definition h_np_update_map (codes : list Z) (i : nat) (h : heap) : heap * res bool :=
  match h_np_instances codes i h with
  | (h1, false) => (h1, Ok false)
  | (h1, true) =>
    match h_np_classes codes i h1 with
    | (h2, false) => (h2, Ok false)
    | (h2, true) => h_update_maps i h2
    end
  end.
Definition h_new_node_profile (db : tables) (r : np_random) (h : heap) : heap * nat * res unit :=
  let '(h, i, x) := h_new_profile db (PInt NODE_PROFILE_CODE) h in
  let '(h, x) := hbind (h, x) (fun h _ =>
    let h := h_np_initial r i (h_set_handler HSuper i h) in
    hbind (h_np_update_map [o_code (ho_val (hobj_at h i))] i h) (fun h _ => (h, Ok tt))) in (h, i, x).
Definition h_new_readonly (db : tables) (r : np_random) (h : heap) : heap * nat * res unit :=
  let '(h, i, x) := h_new_node_profile db r h in
  let '(h, x) := hbind (h, x) (fun h _ =>
    hbind (h_profile_set_code db (PInt NODE_PROFILE_READONLY_CODE) i (h_set_handler HReadOnly i h))
      (fun h _ => (h, Ok tt))) in (h, i, x).
(** Object.copy, object.py:438-444. *)
Definition h_copy_object (i : nat) (h : heap) : heap * nat :=
  let o := hobj_at h i in
  let '(h, j) := h_new (set_o_name (o_name (ho_val o)) (set_o_code (o_code (ho_val o)) (new_object PNone))) h in
  (fold_left (fun h l => let '(h, l') := deepcopy l h in h_add_base l' j h) (map snd (ho_dict o)) h, j).
End Super.

(** ** Answering requests, object.py:330-436, with the built-in handlers *)

(** property_read_requested / property_write_requested, super_object.py:99-109, node_profile.py:160-161. *)
Definition h_may_read (i : nat) (l : nat) (h : heap) : bool :=
  match h_get (op_code (hval h l)) i h with Some q => is_read_enabled (hval h q) | None => false end.
Definition h_may_write (i : nat) (l : nat) (h : heap) : bool :=
  match o_handler (ho_val (hobj_at h i)) with
  | HReadOnly => false
  | _ => match h_get (op_code (hval h l)) i h with Some q => is_write_enabled (hval h q) | None => false end
  end.
Definition h_do_write (i : nat) (h : heap) (mp : prop) : heap * res (prop * bool) :=
  match h_get (p_code mp) i h with
  | None => (h, Ok (mkprop (p_code mp) [], false))
  | Some l =>
      if h_may_write i l h then (h_put_data l (p_data mp) h, Ok (mkprop (p_code mp) [], true))
      else (h, Ok (mkprop (p_code mp) (p_data mp), false))
  end.
Definition h_do_read (i : nat) (h : heap) (mp : prop) : heap * res (prop * bool) :=
  match h_get (p_code mp) i h with
  | None => (h, Ok (mkprop (p_code mp) [], false))
  | Some l =>
      if h_may_read i l h then (h, Ok (mkprop (p_code mp) (op_data (hval h l)), true))
      else (h, Ok (mkprop (p_code mp) [], false))
  end.
Definition h_do_read_wr (i : nat) (h : heap) (mp : prop) : heap * res (prop * bool) :=
  match h_get (p_code mp) i h with
  | None => (h, Err AttributeError)
  | Some l =>
      if h_may_read i l h then (h, Ok (mkprop (p_code mp) (op_data (hval h l)), true))
      else (h, Ok (mkprop (p_code mp) [], false))
  end.
Definition h_do_skip (i : nat) (h : heap) (mp : prop) : heap * res (prop * bool) :=
  (h, Ok (mkprop (p_code mp) [], false)).
Fixpoint h_loop (f : heap -> prop -> heap * res (prop * bool)) (h : heap) (l : list prop) : heap * res (list prop * Z) :=
  match l with
  | [] => (h, Ok ([], 0))
  | mp :: r =>
      match f h mp with
      | (h1, Err e) => (h1, Err e)
      | (h1, Ok (rp, acc)) =>
          match h_loop f h1 r with
          | (h2, Err e) => (h2, Err e)
          | (h2, Ok (rps, n)) => (h2, Ok (rp :: rps, (if acc then 1 else 0) + n))
          end
      end
  end.
Definition h_do_plain (esv : Z) (i : nat) : heap -> prop -> heap * res (prop * bool) :=
  if is_read_request esv then h_do_read i
  else if is_write_request esv then h_do_write i
  else h_do_skip i.
Definition h_received (i : nat) (req : msg) (h : heap) : heap * res (option msg) :=
  if negb (is_request (m_ESV req)) then (h, Ok None)
  else
    match o_handler (ho_val (hobj_at h i)) with
    | HNone => (h, Ok None)
    | _ =>
      let res0 := set_SEOJ (m_DEOJ req) (set_DEOJ (m_SEOJ req) (set_TID (m_TID req) new_msg)) in
      let finish (h' : heap) (res1 : msg) (accepted : Z) :=
        match response_esv (m_ESV req) (accepted =? OPC req + OPCSet req + OPCGet req) with
        | None => (h', Ok None)
        | Some e => (h', Ok (Some (set_ESV e res1)))
        end in
      if is_write_read_request (m_ESV req) then
        match h_loop (h_do_write i) h (m_sets req) with
        | (h1, Err e) => (h1, Err e)
        | (h1, Ok (sets, n)) =>
          match h_loop (h_do_read_wr i) h1 (m_gets req) with
          | (h2, Err e) => (h2, Err e)
          | (h2, Ok (gets, k)) => finish h2 (set_gets gets (set_sets sets res0)) (n + k)
          end
        end
      else
        match h_loop (h_do_plain (m_ESV req) i) h (m_props req) with
        | (h1, Err e) => (h1, Err e)
        | (h1, Ok (ps, n)) => finish h1 (set_props ps res0) n
        end
    end.

(** ** Programs *)

(** What a program does with the objects ([o]) and properties ([p]) it has created, numbered in the
    order of creation. *)
Inductive cmd :=
| CObject' (a : pycode) | CSuper' (a : pycode) | CStandard' (a : pycode) | CProfile' (a : pycode)
| CNode' (r : np_random) | CReadOnly' (r : np_random)  (* constructors *)
| CCopy (o : nat)                                (* o.copy() *)
| CProp (code : Z) (data : list Z)               (* Property(code, data) *)
| CPropCopy (p : nat)                            (* p.copy() *)
| CPropData (p : nat) (data : list Z)            (* p.data = data *)
| CPropAttr (p : nat) (typ attr : Z)             (* p.set_attribute(typ, attr) *)
| CPropRead (p : nat)                            (* p.data *)
| CAdd (o p : nat)                               (* o.add_property(p) *)
| CData (o : nat) (code : Z) (data : list Z)     (* o.set_property_data(code, data) *)
| CAttr (o : nat) (code typ attr : Z)            (* o.get_property(code).set_attribute(typ, attr) *)
| CRead (o : nat) (code : Z)                     (* o.get_property_data(code) *)
| CUpdate (o : nat) (codes : list Z)             (* o._update_map_properties for a node with these objects *)
| CRecv (o : nat) (m : msg)                      (* o.message_received(m) *)
| CDbData (a : pycode) (code : Z) (data : list Z). (* Database().get_object(a).set_property_data(code, data) *)
(** What a command returns. *)
Inductive answer :=
| ANone | AUnit (r : res unit) | ABool (r : res bool) | ABytes (d : option (list Z)) | AMsg (r : res (option msg)).

(** Heap, and the references held by the program. *)
Record hstate := mkhs { hs_heap : heap; hs_objs : list nat; hs_props : list nat }.
Section Programs.
Context {PS : PySet}.
Definition hstep (db : tables) (s : hstate) (c : cmd) : hstate * answer :=
  let h := hs_heap s in
  let new_obj (x : heap * nat) a := (mkhs (fst x) (hs_objs s ++ [snd x]) (hs_props s), a) in
  let new_prop (x : heap * nat) a := (mkhs (fst x) (hs_objs s) (hs_props s ++ [snd x]), a) in
  let keep (h' : heap) a := (mkhs h' (hs_objs s) (hs_props s), a) in
  let obj_of o (f : nat -> hstate * answer) := match nth_error (hs_objs s) o with Some i => f i | None => (s, ANone) end in
  let prop_of p (f : nat -> hstate * answer) := match nth_error (hs_props s) p with Some l => f l | None => (s, ANone) end in
  match c with
  | CObject' a => new_obj (h_new (new_object a) h) ANone
  | CSuper' a => new_obj (h_new (new_super_object a) h) ANone
  | CStandard' a => let '(h', i, r) := h_new_standard db a h in new_obj (h', i) (AUnit r)
  | CProfile' a => let '(h', i, r) := h_new_profile db a h in new_obj (h', i) (AUnit r)
  | CNode' x => let '(h', i, r) := h_new_node_profile db x h in new_obj (h', i) (AUnit r)
  | CReadOnly' x => let '(h', i, r) := h_new_readonly db x h in new_obj (h', i) (AUnit r)
  | CCopy o => obj_of o (fun i => new_obj (h_copy_object i h) ANone)
  | CProp code data => new_prop (alloc_prop (new_property code data, None) h) ANone
  | CPropCopy p => prop_of p (fun l => new_prop (deepcopy l h) ANone)
  | CPropData p data => prop_of p (fun l => keep (h_put_data l data h) ANone)
  | CPropAttr p typ attr => prop_of p (fun l => let '(h', r) := h_set_attribute l typ attr h in keep h' (AUnit r))
  | CPropRead p => prop_of p (fun l => keep h (ABytes (Some (op_data (hval h l)))))
  | CAdd o p => obj_of o (fun i => prop_of p (fun l => let '(h', r) := h_add l i h in keep h' (ABool r)))
  | CData o code data => obj_of o (fun i => let '(h', r) := h_set_data code data i h in keep h' (ABool (Ok r)))
  | CAttr o code typ attr => obj_of o (fun i =>
      match h_get code i h with
      | None => keep h (AUnit (Err AttributeError))
      | Some l => let '(h', r) := h_set_attribute l typ attr h in keep h' (AUnit r)
      end)
  | CRead o code => obj_of o (fun i => keep h (ABytes (h_get_data code i h)))
  | CUpdate o codes => obj_of o (fun i => let '(h', r) := h_np_update_map codes i h in keep h' (ABool r))
  | CRecv o m => obj_of o (fun i => let '(h', r) := h_received i m h in keep h' (AMsg r))
  | CDbData a code data =>
      match h_db_get db a with
      | None => keep h (ABool (Err AttributeError))
      | Some i => let '(h', r) := h_set_data code data i h in keep h' (ABool (Ok r))
      end
  end.
Fixpoint hrun (db : tables) (s : hstate) (l : list cmd) : hstate * list answer :=
  match l with
  | [] => (s, [])
  | c :: r => let '(s1, a) := hstep db s c in let '(s2, al) := hrun db s1 r in (s2, a :: al)
  end.
End Programs.

(** The heap after the import of the database modules: reader.Object instances with their properties,
    std/objects_scsl.py, std/objects_mra.py. *)
Definition import_object (h : heap) (o : obj) : heap :=
  let n := length (h_props h) in let m := length (h_objs h) in
  mkheap (h_props h ++ map (fun kp => (snd kp, Some m)) (o_props o))
         (h_objs h ++ [mkho (set_o_props [] o) (combine (dkeys (o_props o)) (seq n (length (o_props o))))]).
Definition import_all (l : list obj) : heap := fold_left import_object l (mkheap [] []).
Definition db_heap : heap := import_all (dvals all_std_objects).
Definition db_tables : tables := combine (dkeys all_std_objects) (seq 0 (length all_std_objects)).
