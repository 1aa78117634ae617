(** Programs that assign to Property.code (protocol/property.py:18-26: a plain attribute), on the heap of
    HeapM.v: an object's dictionary keeps the code that a property had when it was added
    (object.py:225), while the handlers (super_object.py:99-109), the property maps
    (super_object.py:77-97) and Object.copy (object.py:438-444) use the code it has now. *)
From Verif Require Import PyBase BytesM EsvM MsgM PropM ObjM DbData DbM HeapM.

(** prop.code = code *)
Definition set_op_code (c : Z) (p : oprop) : oprop := mkoprop c (op_data p) (op_get p) (op_set p) (op_anno p).
Definition h_put_prop_code (l : nat) (c : Z) (h : heap) : heap := put_val l (set_op_code c (hval h l)) h.

(** What a program does with the objects [i] and properties [l] of the heap. *)
Inductive kcmd : Type :=
| KObject (a : pycode)                           (* Object(a) *)
| KSuper (a : pycode)                            (* SuperObject(a) *)
| KProp (code : Z) (data : list Z)               (* Property(code, data) *)
| KCode (l : nat) (code : Z)                     (* prop.code = code *)
| KData (l : nat) (data : list Z)                (* prop.data = data *)
| KAttr (l : nat) (typ attr : Z)                 (* prop.set_attribute(typ, attr) *)
| KAdd (i l : nat)                               (* obj.add_property(prop) *)
| KSet (i : nat) (code : Z) (data : list Z)      (* obj.set_property_data(code, data) *)
| KRecv (i : nat) (m : msg).                     (* obj.message_received(m) *)

Section Keys.
Context {PS : PySet}.
(** References that do not exist cannot be used: such a command does nothing. *)
Definition kstep (h : heap) (c : kcmd) : heap * answer :=
  let obj_of i (x : heap * answer) := if (i <? length (h_objs h))%nat then x else (h, ANone) in
  let prop_of l (x : heap * answer) := if (l <? length (h_props h))%nat then x else (h, ANone) in
  match c with
  | KObject a => (fst (h_new (new_object a) h), ANone)
  | KSuper a => (fst (h_new (new_super_object a) h), ANone)
  | KProp code data => (fst (alloc_prop (new_property code data, None) h), ANone)
  | KCode l code => prop_of l (h_put_prop_code l code h, ANone)
  | KData l data => prop_of l (h_put_data l data h, ANone)
  | KAttr l typ attr => prop_of l (let '(h', r) := h_set_attribute l typ attr h in (h', AUnit r))
  | KAdd i l => obj_of i (prop_of l (let '(h', r) := h_add l i h in (h', ABool r)))
  | KSet i code data => obj_of i (let '(h', r) := h_set_data code data i h in (h', ABool (Ok r)))
  | KRecv i m => obj_of i (let '(h', r) := h_received i m h in (h', AMsg r))
  end.
Fixpoint krun (h : heap) (l : list kcmd) : heap * list answer :=
  match l with
  | [] => (h, [])
  | c :: r => let '(h1, a) := kstep h c in let '(h2, al) := krun h1 r in (h2, a :: al)
  end.
End Keys.
