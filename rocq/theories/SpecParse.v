(** Specifications for a Message into which several byte strings are parsed (C08, C07). *)
From Verif Require Import PyBase MsgM SpecWire.

(** The bytes after the two header bytes of Format 1, at least six. *)
Definition headed (b h : list Z) : Prop := b = [0x10; 0x81] ++ h /\ 6 <= zlen h.
(** What the bytes say about each field; the fields may be cut. *)
Definition says_tid (b : list Z) (t : Z) : Prop := exists h, headed b h /\ t = be_val (firstn 2 h).
Definition says_seoj (b : list Z) (c : Z) : Prop := exists h, headed b h /\ c = be_val (firstn 3 (skipn 2 h)).
Definition says_deoj (b : list Z) (c : Z) : Prop := exists h, headed b h /\ c = be_val (firstn 3 (skipn 5 h)).
Definition says_esv (b : list Z) (e : Z) : Prop := exists h, headed b h /\ nth_error h 8 = Some e.
Definition says_props (b : list Z) (ps : list prop) : Prop := exists h e rest, headed b h /\ nth_error h 8 = Some e /\
  two_blocks e = false /\ skipn 9 h = wire_props ps ++ rest.
Definition says_sets (b : list Z) (ps : list prop) : Prop := exists h e rest, headed b h /\ nth_error h 8 = Some e /\
  two_blocks e = true /\ skipn 9 h = wire_props ps ++ rest.
Definition says_gets (b : list Z) (qs : list prop) : Prop := exists h e ps rest, headed b h /\ nth_error h 8 = Some e /\
  two_blocks e = true /\ skipn 9 h = wire_props ps ++ wire_props qs ++ rest.

(** [x] is what the last of [bs] says that says anything, or else [x0]. *)
Definition last_said {A} (says : list Z -> A -> Prop) (bs : list (list Z)) (x0 x : A) : Prop :=
  (exists pre b post, bs = pre ++ b :: post /\ says b x /\ forall b' y, In b' post -> ~ says b' y) \/
  ((forall b y, In b bs -> ~ says b y) /\ x = x0).
