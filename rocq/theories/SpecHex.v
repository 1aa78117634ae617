(** Independent specification of hexadecimal text as read by bytes.fromhex. *)
From Verif Require Import PyBase.

(** [digit c v]: character [c] is the hexadecimal digit of value [v]. *)
Definition digit (c : ascii) (v : Z) : Prop :=
  0 <= v /\
  (String.get (Z.to_nat v) "0123456789abcdef" = Some c \/
   String.get (Z.to_nat v) "0123456789ABCDEF" = Some c).

(** ASCII white space: \t \n \v \f \r and blank. *)
Definition white (c : ascii) : Prop :=
  In c [ascii_of_nat 9; ascii_of_nat 10; ascii_of_nat 11; ascii_of_nat 12; ascii_of_nat 13;
        ascii_of_nat 32].

(** [hex_text s b]: text [s] spells the bytes [b], white space between bytes allowed. *)
Inductive hex_text : string -> list Z -> Prop :=
| ht_end : hex_text "" []
| ht_white c s b : white c -> hex_text s b -> hex_text (String c s) b
| ht_byte c d h l s b : digit c h -> digit d l -> hex_text s b ->
    hex_text (String c (String d s)) (16 * h + l :: b).
