(** Specification for C73: arguments of uechopost as they are typed. *)
From Coq Require Import Decimal DecimalString.
From Verif Require Import PyBase SpecHex ToolM.

(** A field of a tuple: quoted text, or digits without quotes, or an int in another base. *)
Inductive field := Quoted (s : string) | Digits (d : uint) | Based (z : Z).
(** The text of the field. *)
Definition spelled (f : field) : option string :=
  match f with Quoted s => Some s | Digits d => Some (NilEmpty.string_of_uint d) | Based _ => None end.
(** The Python value of the field. *)
Definition evaluated (f : field) : lit :=
  match f with Quoted s => LStr s | Digits d => LInt (Z.of_uint d) | Based z => LInt z end.
(** No leading zero, as Python demands of decimal literals, and not the empty text. *)
Definition no_leading_zero (f : field) : Prop :=
  match f with Digits (D0 _) | Digits Nil => False | _ => True end.
(** The field spells these bytes. *)
Definition spells (f : field) (b : list Z) : Prop := exists s, spelled f = Some s /\ hex_text s b.
