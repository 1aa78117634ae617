(** Model of the message that /repo/bin/uechopost.py builds from its arguments, and of the reads
    that /repo/bin/uechosearch.py makes. *)
From Coq Require Import Decimal DecimalString.
From Verif Require Import PyBase BytesM MsgM PropM ObjM NodeM.

(** A literal in a tuple argument after ast.literal_eval (which is not modelled): a str or an int. *)
Inductive lit := LStr (s : string) | LInt (z : Z).
(** str(x) *)
Definition py_str (l : lit) : string :=
  match l with LStr s => s | LInt z => NilZero.string_of_int (Z.to_int z) end.

(** The loop body, uechopost.py:45-49; an empty tuple raises IndexError. *)
Definition tool_property (t : list lit) : res prop :=
  match t with
  | [] => Err IndexError
  | [c] => code <- hex_from_string (py_str c);; Ok (mkprop code [])
  | c :: d :: _ => code <- hex_from_string (py_str c);; data <- from_string (py_str d);; Ok (mkprop code data)
  end.
Fixpoint tool_properties (m : msg) (l : list (list lit)) : res msg :=
  match l with
  | [] => Ok m
  | t :: r => p <- tool_property t;; tool_properties (fst (add_property (PAProp p) m)) r
  end.
(** uechopost.py:40-49: [obj] and [esv] are the second and third argument. *)
Definition tool_message (obj esv : string) (l : list (list lit)) : res msg :=
  d <- hex_from_string obj;;
  e <- hex_from_string esv;;
  tool_properties (set_ESV e (set_DEOJ d new_msg)) l.

(** The reads of uechosearch -v for one node, uechosearch.py:74-92: object code and property
    code; each is sent once by send_message and once by post_message. *)
Definition search_reads (n : node) : list (Z * Z) :=
  flat_map (fun o => map (fun p => (o_code o, op_code p)) (filter is_read_required (dvals (o_props o)))) (node_objects n).
