(** What the tools of bin/ print (C112). *)
From Verif Require Import PyBase MsgM PropM ObjM SpecHex SpecLog SpecReq NodeM.

(** [spells a s z]: the upper-case hexadecimal digits [s], written after those of [a], give [z]. *)
Definition upper_digit (c : ascii) (d : Z) : Prop := 0 <= d /\ String.get (Z.to_nat d) "0123456789ABCDEF" = Some c.
Fixpoint spells (a : Z) (s : string) (z : Z) : Prop :=
  match s with
  | EmptyString => z = a
  | String c r => exists d, upper_digit c d /\ spells (16 * a + d) r z
  end.
(** [z] in at least [w] hexadecimal digits, with zeros in front only to get that many. *)
Definition hex_number (w : nat) (z : Z) (s : string) : Prop :=
  spells 0 s z /\ (w <= String.length s)%nat /\ (String.length s = w \/ exists c r, s = String c r /\ c <> "0"%char).
(** Bytes in two digits each. *)
Fixpoint hex_bytes (b : list Z) (s : string) : Prop :=
  match b with
  | [] => s = ""%string
  | x :: r => exists c d t, s = String c (String d t) /\ upper_digit c (x / 16) /\ upper_digit d (x mod 16) /\ hex_bytes r t
  end.
(** [pieces P l s]: [s] is made of one piece for each element of [l], in order. *)
Inductive pieces {A} (P : A -> string -> Prop) : list A -> string -> Prop :=
| pc_nil : pieces P [] ""
| pc_cons x l s t : P x s -> pieces P l t -> pieces P (x :: l) (s ++ t).

(** The line of uechopost about an answer. *)
Definition answer_line (t ip : string) (seoj esv : Z) (ps : list prop) : Prop :=
  exists a b s, hex_number 6 seoj a /\ hex_number 2 esv b /\
  pieces (fun p u => exists c h, hex_number 2 (p_code p) c /\ hex_bytes (p_data p) h /\ u = (c ++ " " ++ h ++ " ")%string) ps s /\
  t = (ip ++ " " ++ a ++ " " ++ b ++ " " ++ s)%string.
(** The line about a node with objects of the given codes. *)
Definition number (i : nat) : string := decimal (Z.of_nat i).
Definition numbered {A} (l : list A) : list (nat * A) := combine (seq 0 (length l)) l.
Definition object_line (t ip : string) (codes : list Z) : Prop :=
  exists p s, filled 15 ip p /\
  pieces (fun '(j, code) u => exists x, hex_number 6 code x /\ u = ("[" ++ number j ++ "] " ++ x ++ " ")%string) (numbered codes) s /\
  t = (p ++ " " ++ s)%string.

(** The lines with -v about an object: its own, and one for each mandatory readable property. *)
Definition label (name s : string) : Prop := (name = "" /\ s = "" \/ name <> "" /\ s = "(" ++ name ++ ") ")%string.
Definition head_line (j : nat) (o : obj) (t : string) : Prop :=
  exists x n, hex_number 6 (o_code o) x /\ label (o_name o) n /\ t = ("[" ++ number j ++ "] " ++ x ++ " " ++ n)%string.
Definition value_line (j : nat) (name : oprop -> string) (shown : Z -> list (list Z)) (kp : nat * oprop) (t : string) : Prop :=
  exists x n s, hex_number 2 (op_code (snd kp)) x /\ label (name (snd kp)) n /\
  pieces (fun b u => exists h, hex_bytes b h /\ u = (h ++ " ")%string) (shown (op_code (snd kp))) s /\
  t = ("[" ++ number j ++ "] [" ++ number (fst kp) ++ "] " ++ x ++ " " ++ n ++ s)%string.
Definition object_block (name : obj -> oprop -> string) (shown : Z -> Z -> list (list Z)) (jo : nat * obj) (ls : list string) : Prop :=
  exists t us, ls = t :: us /\ head_line (fst jo) (snd jo) t /\
  Forall2 (value_line (fst jo) (name (snd jo)) (shown (o_code (snd jo)))) (filter (fun kp => op_get (snd kp) =? 1) (numbered (dvals (o_props (snd jo))))) us.
(** The lines with -v about the [i]-th node, [first] being added to the first line. *)
Definition node_block (i : nat) (n : node) (first : string) (name : obj -> oprop -> string) (shown : Z -> Z -> list (list Z)) (ls : list string) : Prop :=
  exists p blocks, filled 15 (node_ip n) p /\ Forall2 (object_block name shown) (numbered (node_objects n)) blocks /\
  ls = (match i with O => [] | S _ => [""%string] end) ++ (p ++ " " ++ first)%string :: concat blocks.
