(** Specification of UTF-8 (RFC 3629, section 3 and the grammar of section 4), for C71. *)
From Verif Require Import PyBase.

Definition tail_byte (b : Z) : Prop := 0x80 <= b <= 0xBF.
(** [utf8_of c bs]: the octets [bs] are UTF8-1, UTF8-2, UTF8-3 or UTF8-4 of RFC 3629 and their
    free bits, read as one number, are [c]. *)
Inductive utf8_of : Z -> list Z -> Prop :=
| utf8_1 b : 0 <= b <= 0x7F -> utf8_of b [b]
| utf8_2 b1 b2 : 0xC2 <= b1 <= 0xDF -> tail_byte b2 ->
    utf8_of ((b1 - 0xC0) * 2 ^ 6 + (b2 - 0x80)) [b1; b2]
| utf8_3 b1 b2 b3 : 0xE0 <= b1 <= 0xEF -> tail_byte b2 -> tail_byte b3 ->
    (b1 = 0xE0 -> 0xA0 <= b2) -> (b1 = 0xED -> b2 <= 0x9F) ->
    utf8_of ((b1 - 0xE0) * 2 ^ 12 + (b2 - 0x80) * 2 ^ 6 + (b3 - 0x80)) [b1; b2; b3]
| utf8_4 b1 b2 b3 b4 : 0xF0 <= b1 <= 0xF4 -> tail_byte b2 -> tail_byte b3 -> tail_byte b4 ->
    (b1 = 0xF0 -> 0x90 <= b2) -> (b1 = 0xF4 -> b2 <= 0x8F) ->
    utf8_of ((b1 - 0xF0) * 2 ^ 18 + (b2 - 0x80) * 2 ^ 12 + (b3 - 0x80) * 2 ^ 6 + (b4 - 0x80)) [b1; b2; b3; b4].
Inductive utf8_text : list Z -> list Z -> Prop :=
| utf8_nil : utf8_text [] []
| utf8_cons c s b l : utf8_of c b -> utf8_text s l -> utf8_text (c :: s) (b ++ l).
(** Code points and Unicode scalar values. *)
Definition code_point (c : Z) : Prop := 0 <= c <= 0x10FFFF.
Definition surrogate (c : Z) : Prop := 0xD800 <= c <= 0xDFFF.
