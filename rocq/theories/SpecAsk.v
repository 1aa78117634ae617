(** What a handler is asked (C104). *)
From Verif Require Import PyBase MsgM PropM ObjM AskM.

(** The code and the data of a question; a question about None has no code. *)
Definition subject (q : question) : option Z :=
  match q with QRead p => option_map op_code p | QWrite p _ => Some (op_code p) end.
Definition offered (q : question) : option (list Z) :=
  match q with QRead _ => None | QWrite _ d => Some d end.
(** [ps] has the property [c]. *)
Definition has (ps : props) (c : Z) : bool := match zget c ps with Some _ => true | None => false end.
(** Every property is stored under its code. *)
Definition by_code (ps : props) : Prop := forall c p, zget c ps = Some p -> op_code p = c.
(** The handler adds, removes and renames no property. *)
Definition keeps_codes (h : asker) : Prop :=
  forall hist ps q c, option_map op_code (zget c (fst (h hist ps q))) = option_map op_code (zget c ps).

(** The questions a message should lead to: one for each property it reads or writes that the object has,
    in the order of the message, with the data of the message. *)
Definition reads_due (ps : props) (l : list prop) : list (option Z * option (list Z)) :=
  map (fun mp => (Some (p_code mp), None)) (filter (fun mp => has ps (p_code mp)) l).
Definition writes_due (ps : props) (l : list prop) : list (option Z * option (list Z)) :=
  map (fun mp => (Some (p_code mp), Some (p_data mp))) (filter (fun mp => has ps (p_code mp)) l).
Definition questions_due (ps : props) (m : msg) : list (option Z * option (list Z)) :=
  let e := m_ESV m in
  if (e =? 0x60) || (e =? 0x61) then writes_due ps (m_props m)
  else if e =? 0x62 then reads_due ps (m_props m)
  else if e =? 0x6E then writes_due ps (m_sets m) ++ reads_due ps (m_gets m)
  else [].
(** The questions of the code: a write-read request also asks about what the object does not have. *)
Definition questions_asked (ps : props) (m : msg) : list (option Z * option (list Z)) :=
  if m_ESV m =? 0x6E
  then writes_due ps (m_sets m) ++ map (fun mp => (if has ps (p_code mp) then Some (p_code mp) else None, None)) (m_gets m)
  else questions_due ps m.
(** [l1] begins with [l2]. *)
Definition prefix_of {A} (l2 l1 : list A) : Prop := exists r, l1 = l2 ++ r.
Definition what (q : question) : option Z * option (list Z) := (subject q, offered q).
(** The handlers of ObjM.v, which see the number of earlier questions; [n]: of those before. *)
Definition counting (n : nat) (h : uhandler) : asker := fun hist ps q =>
  match q with
  | QRead p => h_read h (Nat.add n (length hist)) ps p
  | QWrite p d => h_write h (Nat.add n (length hist)) ps p d
  end.
(** The question shows a property as it is. *)
Definition shown (ps : props) (q : question) : Prop :=
  match q with
  | QRead None => True
  | QRead (Some p) | QWrite p _ => exists c, zget c ps = Some p
  end.
