(** Model of Object.set_property_string (/repo/uecho/object.py:254-255) and of Python's
    str.encode('utf-8').  A str is the list of its code points (0..0x10FFFF, surrogates included). *)
From Verif Require Import PyBase BytesM MsgM PropM ObjM.

(** One code point; a surrogate raises UnicodeEncodeError, a ValueError. *)
Definition utf8_char (c : Z) : res (list Z) :=
  if c <? 0x80 then Ok [c]
  else if c <? 0x800 then Ok [Z.lor 0xC0 (Z.shiftr c 6); Z.lor 0x80 (Z.land c 0x3F)]
  else if (0xD800 <=? c) && (c <=? 0xDFFF) then Err ValueError
  else if c <? 0x10000 then Ok [Z.lor 0xE0 (Z.shiftr c 12); Z.lor 0x80 (Z.land (Z.shiftr c 6) 0x3F); Z.lor 0x80 (Z.land c 0x3F)]
  else Ok [Z.lor 0xF0 (Z.shiftr c 18); Z.lor 0x80 (Z.land (Z.shiftr c 12) 0x3F); Z.lor 0x80 (Z.land (Z.shiftr c 6) 0x3F); Z.lor 0x80 (Z.land c 0x3F)].
(** str.encode('utf-8') *)
Fixpoint utf8_encode (s : list Z) : res (list Z) :=
  match s with
  | [] => Ok []
  | c :: r =>
      match utf8_char c, utf8_encode r with
      | Ok b, Ok l => Ok (b ++ l)
      | _, _ => Err ValueError
      end
  end.
(** set_property_string, object.py:254-255; the argument is encoded first. *)
Definition set_property_string (code : Z) (s : list Z) (o : obj) : obj * res bool :=
  match utf8_encode s with
  | Err e => (o, Err e)
  | Ok b => let '(o', r) := set_property_data code b o in (o', Ok r)
  end.
