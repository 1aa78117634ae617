(** Model of the device of the documentation, /repo/doc/device_overview.md:57-75 (class MyDevice, the same
    handler in doc/device_inside.md:42-54). *)
From Verif Require Import PyBase BytesM EsvM MsgM PropM ObjM DbData DbM NodeM LocalM.

(** property_read_requested; prop is None for an unknown property of a write-read request
    (object.py:360-366), and then prop.code raises. *)
Definition doc_read (_ : nat) (ps : props) (p : option oprop) : props * res bool :=
  match p with
  | None => (ps, Err AttributeError)
  | Some p => (ps, Ok (if negb (op_code p =? 0x80) then false else true))
  end.
(** property_write_requested *)
Definition doc_write (_ : nat) (ps : props) (p : oprop) (data : list Z) : props * res bool :=
  if negb (op_code p =? 0x80) then (ps, Ok false)
  else if negb (zlen (op_data p) =? 1) then (ps, Ok false)
  else
    match data with
    | [] => (ps, Err IndexError)                       (* data[0] *)
    | x :: _ => if negb (x =? 0x30) && negb (x =? 0x31) then (ps, Ok false) else (ps, Ok true)
    end.
Definition doc_handler : handler := HUser (mkuhandler doc_read doc_write).

Section Doc.
Context {PS : PySet}.

(** MyDevice() *)
Definition new_doc : obj * res unit :=
  match new_standard (PInt 0x029101) with
  | (o, Ok _) => (set_request_handler doc_handler o, Ok tt)
  | x => x
  end.
(** node = LocalNode(); dev = MyDevice(); node.add_object(dev) *)
Definition new_doc_node (r : np_random) : lnode * res bool :=
  match new_local_node r with
  | (s, Err e) => (s, Err e)
  | (s, Ok _) =>
      match new_doc with
      | (_, Err e) => (s, Err e)
      | (o, Ok _) => local_add_object (Some o) s
      end
  end.

End Doc.
