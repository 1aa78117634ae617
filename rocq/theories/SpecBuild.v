(** Specifications for building a request (C93). *)
From Verif Require Import PyBase MsgM SpecWire.

(** The classes of messages.py and their services. *)
Inductive kind := Read | Write | WriteRes | WriteRead.
Definition made (k : kind) (deoj : Z) : msg :=
  match k with
  | Read => read_request deoj
  | Write => write_request deoj
  | WriteRes => write_response_required_request deoj
  | WriteRead => write_read_request deoj
  end.
Definition service (k : kind) : Z := match k with Read => 0x62 | Write => 0x60 | WriteRes => 0x61 | WriteRead => 0x6E end.
(** The three methods that add a property. *)
Inductive addition := Plain (a : prop_arg) | ToSet (a : prop_arg) | ToGet (a : prop_arg).
Definition do_add (x : addition) (m : msg) : msg * bool :=
  match x with Plain a => add_property a m | ToSet a => add_set_property a m | ToGet a => add_get_property a m end.
Fixpoint do_adds (l : list addition) (m : msg) : msg * list bool :=
  match l with
  | [] => (m, [])
  | x :: r => let '(m1, b) := do_add x m in let '(m2, bs) := do_adds r m1 in (m2, b :: bs)
  end.
(** The property an argument stands for: an [int] is a code, a pair a code and data. *)
Definition meant (a : prop_arg) : list prop :=
  match a with
  | PAProp p => [p]
  | PAInt c => [mkprop c []]
  | PATuple2 c d => [mkprop c d]
  | PATupleN => []
  | PAOther => []
  end.
Definition plains (l : list addition) : list prop := flat_map (fun x => match x with Plain a => meant a | _ => [] end) l.
Definition to_sets (l : list addition) : list prop := flat_map (fun x => match x with ToSet a => meant a | _ => [] end) l.
Definition to_gets (l : list addition) : list prop := flat_map (fun x => match x with ToGet a => meant a | _ => [] end) l.
Definition arg_of (x : addition) : prop_arg := match x with Plain a | ToSet a | ToGet a => a end.
(** The request carries what this method adds. *)
Definition suits (k : kind) (x : addition) : bool :=
  match k, x with
  | WriteRead, Plain _ => false
  | WriteRead, _ => true
  | _, Plain _ => true
  | _, _ => false
  end.
(** The frame of a request: header, object of the sender (a node profile), addressed object, service, properties. *)
Definition body (k : kind) (l : list addition) : list Z :=
  match k with
  | WriteRead => wire_props (to_sets l) ++ wire_props (to_gets l)
  | _ => wire_props (plains l)
  end.
Definition frame_of (tid : Z) (k : kind) (deoj : Z) (l : list addition) : list Z :=
  [0x10; 0x81] ++ be 2 tid ++ [0x0E; 0xF0; 0x01] ++ be 3 deoj ++ [service k] ++ body k l.
Definition fits (k : kind) (l : list addition) : Prop :=
  match k with
  | WriteRead => fits_list (to_sets l) /\ fits_list (to_gets l)
  | _ => fits_list (plains l)
  end.
