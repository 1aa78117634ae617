(** Model of local nodes whose objects are references: an object can be added to several nodes, or again,
    and its code can be changed at any time.

    Positions in [w_heap] are objects.  A node has a table from codes to objects (node.py:23, 27) and its own
    node profile, [rn_prof] (local_node.py:28, 34). *)
From Verif Require Import PyBase BytesM EsvM MsgM PropM ObjM DbM NodeM TidM RunM.

Record rnode := mkrn { rn_tab : list (Z * nat); rn_prof : nat }.
Record world := mkw { w_heap : list obj; w_nodes : list rnode }.

Inductive rop :=
| RAdd (n i : nat)                        (* (node n).add_object(object i) *)
| RCode (i : nat) (c : Z)                 (* (object i).code = c; what set_code and the setters of object.py do *)
| RSet (i : nat) (c : Z) (d : list Z)     (* (object i).set_property_data(c, d) *)
| RAsk (n : nat) (m : msg).               (* (node n).message_received(m), up to the answer *)
Inductive rres := RBool (r : res bool) | RNone | RAnswer (r : res (option msg)).

Section Ref.
Context {PS : PySet}.
Definition set_at (l : list rnode) (n : nat) (x : rnode) : list rnode := put l n x.
(** LocalNode.add_object, local_node.py:41-44: the store of node.py:55, the list of objects of
    node.py:60-64 (each object once for each of its codes in the table), and the update of the own profile.
    [codes] are the codes the listed objects have now (node_profile.py:99-133). *)
Definition ref_add (n i : nat) (w : world) : world * rres :=
  match nth_error (w_nodes w) n with
  | None => (w, RNone)
  | Some nd =>
      let tab := zset (o_code (at_ref (w_heap w) i)) i (rn_tab nd) in
      let codes := map (fun x => o_code (at_ref (w_heap w) (snd x))) tab in
      let '(p, r) := np_update_map codes (at_ref (w_heap w) (rn_prof nd)) in
      (mkw (put (w_heap w) (rn_prof nd) p) (set_at (w_nodes w) n (mkrn tab (rn_prof nd))), RBool r)
  end.
(** LocalNode.message_received, local_node.py:86-93; [m] is the copy made in line 86. *)
Definition ref_ask (n : nat) (m : msg) (w : world) : world * rres :=
  match nth_error (w_nodes w) n with
  | None => (w, RNone)
  | Some nd =>
      match zget (o_code (new_object (PInt (m_DEOJ m)))) (rn_tab nd) with
      | None => (w, RNone)
      | Some i =>
          let '(o, _, r) := obj_message_received (at_ref (w_heap w) i) m in
          (mkw (put (w_heap w) i o) (w_nodes w), RAnswer r)
      end
  end.
Definition ref_step (w : world) (x : rop) : world * rres :=
  match x with
  | RAdd n i => ref_add n i w
  | RCode i c => (mkw (put (w_heap w) i (set_o_code c (at_ref (w_heap w) i))) (w_nodes w), RNone)
  | RSet i c d =>
      let '(o, b) := set_property_data c d (at_ref (w_heap w) i) in
      (mkw (put (w_heap w) i o) (w_nodes w), RBool (Ok b))
  | RAsk n m => ref_ask n m w
  end.
Definition ref_run (w : world) (l : list rop) : world := fold_left (fun w x => fst (ref_step w x)) l w.
End Ref.
