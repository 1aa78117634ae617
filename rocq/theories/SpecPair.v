(** Specification for the two programs of the documentation together (C123). *)
From Verif Require Import PyBase MsgM PropM ObjM SpecHex SpecReq SpecOut SpecMono SpecDoc SpecGuide.

(** What is printed about a write: nothing, or service code and properties. *)
Definition shown (e : option (Z * list prop)) (ls : list string) : Prop :=
  match e with None => ls = [] | Some (e, ps) => answer_rows e ps ls end.
(** The device: whether its server runs, and what property 0x80 holds.  One write. *)
Definition pair_step (known : Z -> bool) (st : bool * list Z) (c : Z) (w : list Z) : bool * list Z * option (Z * list prop) :=
  let '(alive, d) := st in
  if negb alive then (st, None)
  else if negb (known c) then (st, Some (0x50, [mkprop c []]))
  else match doc_verdict d c w with
       | accept => ((true, w), None)
       | refuse => (st, Some (0x50, [mkprop c w]))
       | fail => ((false, d), None)
       end.
Fixpoint pair_run (known : Z -> bool) (st : bool * list Z) (l : list (Z * list Z)) : bool * list Z * list (option (Z * list prop)) :=
  match l with
  | [] => (st, [])
  | (c, w) :: r => let '(st1, e) := pair_step known st c w in let '(st2, es) := pair_run known st1 r in (st2, e :: es)
  end.
Definition to_light (l : list (Z * list Z)) : list (Z * Z * list Z) := map (fun x => (0x029101, fst x, snd x)) l.
(** The writes of one byte on or off to the status, in order. *)
Definition switched (x : Z) (l : list (Z * list Z)) : Z :=
  fold_left (fun y cw => match cw with (c, [b]) => if (c =? 0x80) && on_offb b then b else y | _ => y end) l x.
