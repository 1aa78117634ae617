(** Byte arrays, properties and messages as references: which arrays the library stores and hands out.
    A property (of an object or of a message) refers to an array, [Property.data]
    (/repo/uecho/protocol/property.py:24-26); an array is [bytes], which cannot be changed, or
    [bytearray], which can.  The library never changes an array in place; it stores references
    (object.py:247-252, 355, 378, controller.py:269) and hands them out (object.py:235-239, 354, 377,
    controller.py:205).
    Simplified: codes, attributes and access rights are left out (a refused write stores nothing); properties
    are numbered; a reference that does not exist is an operation without effect. *)
From Verif Require Import PyBase BytesM EsvM MsgM TidM.

Record bst := mkbst {
  b_heap : list (bool * list Z);   (* arrays: (can be changed, content) *)
  b_vars : list nat;               (* the references the application holds *)
  b_cells : list nat;              (* Property objects: the array each refers to *)
  b_msgs : list (list nat)         (* Message objects: their properties *)
}.
Inductive bop :=
| BNew (mu : bool) (d : list Z)  (* the application makes an array *)
| BEdit (v : nat) (f : list Z -> list Z) (* ... changes an array it holds: v[i] = x, v.extend(...), ... *)
| BLook (v : nat)                (* ... looks at it *)
| BSet (c v : nat)               (* set_property_data, object.py:247-252; an accepted write, object.py:354-355, 377-378 *)
| BGet (c : nat)                 (* get_property_data, object.py:235-239; prop.data *)
| BArrive (d : list Z)           (* an array of a received message, which observers, handlers and the caller of post_message get *)
| BRecord (c v : nat)            (* _update_properties, controller.py:268-271 *)
| BRead (c : nat)                (* the data of a read answer, object.py:373-375 and to_bytes *)
| BCopy (c : nat)                (* Property.copy, property.py:172-176 *)
| BProp (v : nat)                (* Property(code, v); add_property((code, v)), message.py:46-52 *)
| BMsg                           (* Message() *)
| BAdd (m c : nat)               (* Message.add_property(prop), message.py:41-42, 63-66 *)
| BSend (m : nat).               (* to_bytes, protocol/message.py:156-176, when the message is sent *)
Inductive bob :=
| OBytes (d : list Z)            (* what was looked at, or read by a controller *)
| OFrame (l : list (list Z))     (* the data of the properties of a sent frame *)
| OTold (b : bool)               (* whether the listeners are told of a new value *)
| ORefused.                      (* TypeError or AttributeError: bytes cannot be changed *)

Definition content (s : bst) (r : nat) : list Z := snd (nth r (b_heap s) (false, [])).
(** The arrays of a message are slices (protocol/message.py:117).  LocalNode and Controller parse what to_bytes
    returned (message.py:28), a bytearray (protocol/message.py:164); slices of it are bytearrays. *)
Definition alloc (mu : bool) (d : list Z) (s : bst) : bst * nat :=
  (mkbst (b_heap s ++ [(mu, d)]) (b_vars s) (b_cells s) (b_msgs s), length (b_heap s)).
Definition add_var (r : nat) (s : bst) : bst := mkbst (b_heap s) (b_vars s ++ [r]) (b_cells s) (b_msgs s).
Definition add_cell (r : nat) (s : bst) : bst := mkbst (b_heap s) (b_vars s) (b_cells s ++ [r]) (b_msgs s).
Definition set_cell (c r : nat) (s : bst) : bst := mkbst (b_heap s) (b_vars s) (put (b_cells s) c r) (b_msgs s).
Definition set_heap (h : list (bool * list Z)) (s : bst) : bst := mkbst h (b_vars s) (b_cells s) (b_msgs s).

Definition bstep (s : bst) (o : bop) : bst * list bob :=
  match o with
  | BNew mu d => let '(s1, r) := alloc mu d s in (add_var r s1, [])
  | BEdit v f =>
      match nth_error (b_vars s) v with
      | None => (s, [])
      | Some r =>
          match nth_error (b_heap s) r with
          | Some (true, d) => (set_heap (put (b_heap s) r (true, f d)) s, [])
          | _ => (s, [ORefused])
          end
      end
  | BLook v => match nth_error (b_vars s) v with None => (s, []) | Some r => (s, [OBytes (content s r)]) end
  | BSet c v => match nth_error (b_vars s) v with None => (s, []) | Some r => (set_cell c r s, []) end
  | BGet c => match nth_error (b_cells s) c with None => (s, []) | Some r => (add_var r s, []) end
  | BArrive d => let '(s1, r) := alloc true d s in (add_var r s1, [])
  | BRecord c v =>
      match nth_error (b_cells s) c, nth_error (b_vars s) v with
      | Some r, Some r' =>
          if bytes_eqb (content s r) (content s r') then (s, [OTold false]) else (set_cell c r' s, [OTold true])
      | _, _ => (s, [])
      end
  | BRead c => match nth_error (b_cells s) c with None => (s, []) | Some r => (s, [OBytes (content s r)]) end
  | BCopy c =>
      match nth_error (b_cells s) c with
      | None => (s, [])
      | Some r => let '(s1, r1) := alloc (fst (nth r (b_heap s) (false, []))) (content s r) s in (add_cell r1 s1, [])
      end
  | BProp v => match nth_error (b_vars s) v with None => (s, []) | Some r => (add_cell r s, []) end
  | BMsg => (mkbst (b_heap s) (b_vars s) (b_cells s) (b_msgs s ++ [[]]), [])
  | BAdd m c =>
      match nth_error (b_msgs s) m, nth_error (b_cells s) c with
      | Some l, Some _ => (mkbst (b_heap s) (b_vars s) (b_cells s) (put (b_msgs s) m (l ++ [c])), [])
      | _, _ => (s, [])
      end
  | BSend m =>
      match nth_error (b_msgs s) m with
      | None => (s, [])
      | Some l => (s, [OFrame (map (fun c => content s (nth c (b_cells s) 0%nat)) l)])
      end
  end.
Fixpoint brun (s : bst) (l : list bop) : bst * list bob :=
  match l with
  | [] => (s, [])
  | o :: r => let '(s1, e1) := bstep s o in let '(s2, e2) := brun s1 r in (s2, e1 ++ e2)
  end.
