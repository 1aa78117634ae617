(** Specifications for objects that are shared, added again or given another code (C94). *)
From Verif Require Import PyBase EsvM MsgM PropM ObjM NodeM LocalM SpecWire SpecObj SpecNode SpecProf RunM SpecRun RefM.
Local Open Scope nat_scope.

(** The profiles of new nodes. *)
Definition new_profiles {PS : PySet} (profs : list obj) : Prop :=
  forall p, In p profs -> exists c r s, new_local c r = (s, Ok tt) /\ zget 0x0EF001%Z (ln_objs s) = Some p.
(** New nodes with these profiles; object [k] is the profile of node [k], the devices follow. *)
Definition fresh (profs devs : list obj) : world :=
  mkw (profs ++ devs) (map (fun k => mkrn [(0x0EF001%Z, k)] k) (seq 0 (length profs))).
(** Operations on existing nodes and devices. *)
Definition proper (profs devs : list obj) (x : rop) : Prop :=
  match x with
  | RAdd n i => n < length profs /\ length profs <= i < length profs + length devs
  | RCode i _ | RSet i _ _ => length profs <= i < length profs + length devs
  | RAsk n _ => n < length profs
  end.

Section History.
Context (h : list obj).
(** The code of object [i] after these operations. *)
Definition code_after (i : nat) (past : list rop) : Z :=
  fold_left (fun c x => match x with RCode j c' => if Nat.eqb j i then c' else c | _ => c end) past
    (match nth_error h i with Some o => o_code o | None => 0%Z end).
(** The object that node [n] finds under code [c]: the last one that was added while it had this code. *)
Fixpoint found_from (n : nat) (c : Z) (past ops : list rop) (cur : option nat) : option nat :=
  match ops with
  | [] => cur
  | x :: r =>
      found_from n c (past ++ [x]) r
        match x with
        | RAdd n' i => if Nat.eqb n' n && (code_after i past =? c)%Z then Some i else cur
        | _ => cur
        end
  end.
Definition found_after (n : nat) (c : Z) (ops : list rop) : option nat :=
  found_from n c [] ops (if (c =? 0x0EF001)%Z then Some n else None).
(** The codes under which node [n] finds an object, in the order in which they were first used. *)
Fixpoint keys_from (n : nat) (past ops : list rop) (cur : list Z) : list Z :=
  match ops with
  | [] => cur
  | x :: r =>
      keys_from n (past ++ [x]) r
        match x with
        | RAdd n' i => if Nat.eqb n' n && negb (existsb (Z.eqb (code_after i past)) cur) then cur ++ [code_after i past] else cur
        | _ => cur
        end
  end.
Definition keys_after (n : nat) (ops : list rop) : list Z := keys_from n [] ops [0x0EF001%Z].
(** The codes that the objects found by node [n] have now. *)
Definition codes_now (n : nat) (ops : list rop) : list Z :=
  map (fun k => match found_after n k ops with Some i => code_after i ops | None => 0%Z end) (keys_after n ops).
(** The codes at the last addition to node [n]. *)
Fixpoint listed_from (n : nat) (past ops : list rop) (cur : list Z) : list Z :=
  match ops with
  | [] => cur
  | x :: r =>
      listed_from n (past ++ [x]) r
        match x with
        | RAdd n' _ => if Nat.eqb n' n then codes_now n (past ++ [x]) else cur
        | _ => cur
        end
  end.
Definition listed (n : nat) (ops : list rop) : list Z := listed_from n [] ops [0x0EF001%Z].
(** What these operations make of device [i]. *)
Fixpoint obj_from (i : nat) (past ops : list rop) (o : obj) : obj :=
  match ops with
  | [] => o
  | x :: r =>
      obj_from i (past ++ [x]) r
        match x with
        | RAdd _ _ => o
        | RCode j c => if Nat.eqb j i then set_o_code c o else o
        | RSet j c d => if Nat.eqb j i then fst (set_property_data c d o) else o
        | RAsk n m =>
            match found_after n (m_DEOJ m) past with
            | Some j => if Nat.eqb j i then fst (fst (obj_message_received o m)) else o
            | None => o
            end
        end
  end.
(** No object gets another code after it was added. *)
Definition settled (ops : list rop) : Prop :=
  forall k i c, nth_error ops k = Some (RCode i c) -> forall n, ~ In (RAdd n i) (firstn k ops).
End History.
