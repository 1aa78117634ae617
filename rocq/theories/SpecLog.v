(** What the log says about the traffic (C111). *)
From Coq Require Import Decimal DecimalString.
From Verif Require Import PyBase MsgM SpecHex SpecWire NodeM SpecLocal.

(** [filled n s t]: [t] is [s], followed by as many blanks as make it [n] characters long. *)
Inductive blank_str : string -> Prop :=
| bs_nil : blank_str ""
| bs_cons s : blank_str s -> blank_str (String " " s).
Definition filled (n : nat) (s t : string) : Prop :=
  exists b, blank_str b /\ t = (s ++ b)%string /\ String.length t = Nat.max n (String.length s).
Definition decimal (z : Z) : string := NilZero.string_of_int (Z.to_int z).

(** The line [t] says that the server on the interface [own] received ([dir] is "<-") or sent ("->")
    the bytes [b] from or to [peer]. *)
Definition line_says (t dir own : string) (peer : addr) (b : list Z) : Prop :=
  exists o p q h, filled 15 own o /\ filled 15 (fst peer) p /\ filled 5 (decimal (snd peer)) q /\ hex_text h b /\
  t = (o ++ ":3610  " ++ dir ++ " " ++ p ++ ":" ++ q ++ " " ++ h)%string.
(** A name without blanks and colons. *)
Fixpoint plain_name (s : string) : Prop :=
  match s with "" => True | String c r => c <> " "%char /\ c <> ":"%char /\ plain_name r end%string.

(** A record about the datagram [x] that was given to a socket: DEBUG if it was accepted and ERROR
    if the result was not positive. *)
Definition about_sent (x : send) (r : Z * string) : Prop :=
  let '(i, b, d, res) := x in
  exists n, res = Ok n /\ fst r = (if n <=? 0 then 40 else 10) /\ (bytes_ok b -> line_says (snd r) "->" i d b).
(** Sending did not raise. *)
Definition returned (x : send) : bool := match snd x with Ok _ => true | Err _ => false end.

(** [subseq a l]: [a] is [l] with some elements left out. *)
Inductive subseq {A} : list A -> list A -> Prop :=
| sub_nil : subseq [] []
| sub_skip x a l : subseq a l -> subseq a (x :: l)
| sub_take x a l : subseq a l -> subseq (x :: a) (x :: l).
(** [merged a b l]: [l] consists of [a] and [b], each in order. *)
Inductive merged {A} : list A -> list A -> list A -> Prop :=
| mg_nil : merged [] [] []
| mg_left x a b l : merged a b l -> merged (x :: a) b (x :: l)
| mg_right x a b l : merged a b l -> merged a (x :: b) (x :: l).

(** The name of a level. *)
Definition named (level : Z) (s : string) : Prop :=
  In (level, s) [(10, "DEBUG"); (20, "INFO"); (30, "WARNING"); (40, "ERROR"); (50, "CRITICAL")]%string.
