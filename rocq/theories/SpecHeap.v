(** What it means that objects can be treated as values: the same programs on objects that contain
    their properties. *)
From Verif Require Import PyBase BytesM EsvM MsgM PropM ObjM DbData DbM HeapM.

(** The object a reference stands for, read through the heap. *)
Definition view (h : heap) (i : nat) : obj :=
  set_o_props (map (fun kl => (fst kl, hval h (snd kl))) (ho_dict (hobj_at h i))) (ho_val (hobj_at h i)).

(** A property the program holds: on its own, or the one an object has under a code. *)
Inductive vprop := VLoose (p : oprop) | VAt (o : nat) (k : Z).
Record vstate := mkvs { vs_objs : list obj; vs_props : list vprop }.

Definition vobj (s : vstate) (o : nat) : obj := nth o (vs_objs s) (new_object PNone).
Definition vval (s : vstate) (v : vprop) : oprop :=
  match v with
  | VLoose p => p
  | VAt o k => match get_property k (vobj s o) with Some p => p | None => fst nil_prop end
  end.
(** Writing to the property an object has under a code. *)
Definition change_property (k : Z) (f : oprop -> oprop) (o : obj) : obj :=
  match get_property k o with
  | None => o
  | Some p => set_o_props (zset k (f p) (o_props o)) o
  end.
Definition vchange (s : vstate) (p : nat) (v : vprop) (f : oprop -> oprop) : vstate :=
  match v with
  | VLoose q => mkvs (vs_objs s) (upd (vs_props s) p (VLoose (f q)))
  | VAt o k => mkvs (upd (vs_objs s) o (change_property k f (vobj s o))) (vs_props s)
  end.
(** Adding a property: whoever held the one it replaces holds it on its own from now on. *)
Definition vdetach (s : vstate) (o : nat) (k : Z) (v : vprop) : vprop :=
  match v with
  | VLoose q => VLoose q
  | VAt o' k' => if ((o' =? o)%nat && (k' =? k))%bool then VLoose (vval s v) else VAt o' k'
  end.

Section Values.
Context {PS : PySet}.
Definition vstep (s : vstate) (c : cmd) : vstate * answer :=
  let new_obj x a := (mkvs (vs_objs s ++ [x]) (vs_props s), a) in
  let new_prop x a := (mkvs (vs_objs s) (vs_props s ++ [VLoose x]), a) in
  let put o x a := (mkvs (upd (vs_objs s) o x) (vs_props s), a) in
  let obj_of o (f : obj -> vstate * answer) := match nth_error (vs_objs s) o with Some x => f x | None => (s, ANone) end in
  let prop_of p (f : vprop -> vstate * answer) := match nth_error (vs_props s) p with Some v => f v | None => (s, ANone) end in
  match c with
  | CObject' a => new_obj (new_object a) ANone
  | CSuper' a => new_obj (new_super_object a) ANone
  | CStandard' a => let '(x, r) := new_standard a in new_obj x (AUnit r)
  | CProfile' a => let '(x, r) := new_profile a in new_obj x (AUnit r)
  | CNode' rnd => let '(x, r) := new_node_profile rnd in new_obj x (AUnit r)
  | CReadOnly' rnd => let '(x, r) := new_node_profile_readonly rnd in new_obj x (AUnit r)
  | CCopy o => obj_of o (fun x => new_obj (copy_object x) ANone)
  | CProp code data => new_prop (new_property code data) ANone
  | CPropCopy p => prop_of p (fun v => new_prop (vval s v) ANone)
  | CPropData p data => prop_of p (fun v => (vchange s p v (set_op_data data), ANone))
  | CPropAttr p typ attr => prop_of p (fun v =>
      (vchange s p v (fun q => fst (set_attribute typ attr q)), AUnit (snd (set_attribute typ attr (vval s v)))))
  | CPropRead p => prop_of p (fun v => (s, ABytes (Some (op_data (vval s v)))))
  | CAdd o p => obj_of o (fun x => prop_of p (fun v =>
      let '(x', r) := obj_add_property (Some (vval s v)) x in
      let k := op_code (vval s v) in
      (mkvs (upd (vs_objs s) o x') (upd (map (vdetach s o k) (vs_props s)) p (VAt o k)), ABool r)))
  | CData o code data => obj_of o (fun x => let '(x', r) := set_property_data code data x in put o x' (ABool (Ok r)))
  | CAttr o code typ attr => obj_of o (fun x =>
      match get_property code x with
      | None => (s, AUnit (Err AttributeError))
      | Some q => put o (change_property code (fun q => fst (set_attribute typ attr q)) x) (AUnit (snd (set_attribute typ attr q)))
      end)
  | CRead o code => obj_of o (fun x => (s, ABytes (get_property_data code x)))
  | CUpdate o codes => obj_of o (fun x => let '(x', r) := np_update_map codes x in put o x' (ABool r))
  | CRecv o m => obj_of o (fun x => let '(x', _, r) := obj_message_received x m in put o x' (AMsg r))
  | CDbData a code data =>
      match db_get_object a with
      | None => (s, ABool (Err AttributeError))
      | Some x => (s, ABool (Ok (snd (set_property_data code data x))))
      end
  end.
Fixpoint vrun (s : vstate) (l : list cmd) : vstate * list answer :=
  match l with
  | [] => (s, [])
  | c :: r => let '(s1, a) := vstep s c in let '(s2, al) := vrun s1 r in (s2, a :: al)
  end.

(** Programs that add no property that already belongs to an object, and do not write to the
    objects of the database. *)
Definition fair (s : vstate) (c : cmd) : Prop :=
  match c with
  | CAdd _ p => forall o k, nth_error (vs_props s) p <> Some (VAt o k)
  | CDbData _ _ _ => False
  | _ => True
  end.
Fixpoint fair_program (s : vstate) (l : list cmd) : Prop :=
  match l with
  | [] => True
  | c :: r => fair s c /\ fair_program (fst (vstep s c)) r
  end.
End Values.

Definition hstart : hstate := mkhs db_heap [] [].
Definition vstart : vstate := mkvs [] [].
