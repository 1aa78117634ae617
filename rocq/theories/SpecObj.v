(** Independent specifications for object codes and property tables. *)
From Verif Require Import PyBase PropM ObjM SpecWire.

(** The three bytes of an object code, by division. *)
Definition group_of (c : Z) : Z := (c / 65536) mod 256.
Definition class_of (c : Z) : Z := (c / 256) mod 256.
Definition instance_of (c : Z) : Z := c mod 256.
Definition compose (g c i : Z) : Z := g * 65536 + c * 256 + i.

(** Operations on a property table and what a map must hold afterwards.  A history is
    given most recent operation first. *)
Inductive top :=
| TAdd (p : oprop)                       (* add_property *)
| TData (code : Z) (data : list Z)       (* set_property_data *)
| TInt (code val size : Z).              (* set_property_integer *)

(** Bytes of an integer, big-endian ([be] of SpecWire); none for a negative size. *)
Definition int_bytes (v n : Z) : option (list Z) :=
  if n <? 0 then None else Some (be (Z.to_nat n) v).

Fixpoint table_spec (code : Z) (h : list top) : option oprop :=
  match h with
  | [] => None
  | TAdd p :: r => if op_code p =? code then Some p else table_spec code r
  | TData c d :: r =>
      if c =? code then
        match table_spec code r with Some p => Some (set_op_data d p) | None => None end
      else table_spec code r
  | TInt c v n :: r =>
      match int_bytes v n with
      | Some d =>
          if c =? code then
            match table_spec code r with Some p => Some (set_op_data d p) | None => None end
          else table_spec code r
      | None => table_spec code r
      end
  end.

(** Codes in order of their first add_property (history oldest first). *)
Fixpoint first_codes (seen : list Z) (h : list top) : list Z :=
  match h with
  | [] => []
  | TAdd p :: r =>
      if existsb (Z.eqb (op_code p)) seen then first_codes seen r
      else op_code p :: first_codes (op_code p :: seen) r
  | _ :: r => first_codes seen r
  end.

(** Running a history (oldest first) on a plain Object with the functions of ObjM. *)
Definition table_step (o : obj) (op : top) : obj :=
  match op with
  | TAdd p => fst (add_property_base (Some p) o)
  | TData c d => fst (set_property_data c d o)
  | TInt c v n => fst (set_property_integer c v n o)
  end.
Definition table_run (h : list top) (o : obj) : obj := fold_left table_step h o.
