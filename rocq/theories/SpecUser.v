(** Specification of requests to an object with a handler of the application (C117): what is asked, what is stored and
    what is answered, property by property, in terms of the handler and the property table alone. *)
From Verif Require Import PyBase MsgM PropM ObjM.

(** The number of questions the handler was asked so far (a handler may remember them), and the property table. *)
Definition ustate := (nat * props)%type.
(** [ps'] is [ps] with the data [d] in the property with code [c], if there is one. *)
Definition stores (c : Z) (d : list Z) (ps ps' : props) : Prop :=
  map fst ps' = map fst ps /\
  forall k, zget k ps' = if k =? c then option_map (fun p => mkoprop (op_code p) d (op_get p) (op_set p) (op_anno p)) (zget k ps) else zget k ps.

(** One property to read: the answer, and whether it was accepted.  [wr]: in a write-read request. *)
Inductive u_read (h : uhandler) (wr : bool) : ustate -> prop -> ustate -> res (prop * bool) -> Prop :=
| ur_unknown n ps mp : wr = false -> zget (p_code mp) ps = None ->
    u_read h wr (n, ps) mp (n, ps) (Ok (mkprop (p_code mp) [], false))
| ur_allowed n ps mp p ps' d : zget (p_code mp) ps = Some p -> h_read h n ps (Some p) = (ps', Ok true) ->
    (forall q, zget (p_code mp) ps' = Some q -> d = op_data q) -> (zget (p_code mp) ps' = None -> d = op_data p) ->
    u_read h wr (n, ps) mp (S n, ps') (Ok (mkprop (p_code mp) d, true))
| ur_refused n ps mp p ps' : zget (p_code mp) ps = Some p -> h_read h n ps (Some p) = (ps', Ok false) ->
    u_read h wr (n, ps) mp (S n, ps') (Ok (mkprop (p_code mp) [], false))
| ur_raised n ps mp p ps' e : zget (p_code mp) ps = Some p -> h_read h n ps (Some p) = (ps', Err e) ->
    u_read h wr (n, ps) mp (S n, ps') (Err e)
(* an unknown property in a write-read request: the handler is asked about None *)
| ur_none n ps mp ps' b : wr = true -> zget (p_code mp) ps = None -> h_read h n ps None = (ps', b) ->
    u_read h wr (n, ps) mp (S n, ps')
      (match b with Ok true => Err AttributeError | Ok false => Ok (mkprop (p_code mp) [], false) | Err e => Err e end).

(** One property to write. *)
Inductive u_write (h : uhandler) : ustate -> prop -> ustate -> res (prop * bool) -> Prop :=
| uw_unknown n ps mp : zget (p_code mp) ps = None ->
    u_write h (n, ps) mp (n, ps) (Ok (mkprop (p_code mp) [], false))
| uw_allowed n ps mp p ps' ps2 : zget (p_code mp) ps = Some p -> h_write h n ps p (p_data mp) = (ps', Ok true) ->
    stores (p_code mp) (p_data mp) ps' ps2 ->
    u_write h (n, ps) mp (S n, ps2) (Ok (mkprop (p_code mp) [], true))
| uw_refused n ps mp p ps' : zget (p_code mp) ps = Some p -> h_write h n ps p (p_data mp) = (ps', Ok false) ->
    u_write h (n, ps) mp (S n, ps') (Ok (mkprop (p_code mp) (p_data mp), false))
| uw_raised n ps mp p ps' e : zget (p_code mp) ps = Some p -> h_write h n ps p (p_data mp) = (ps', Err e) ->
    u_write h (n, ps) mp (S n, ps') (Err e).

(** All properties of a list, until one raises. *)
Inductive u_all (R : ustate -> prop -> ustate -> res (prop * bool) -> Prop) : ustate -> list prop -> ustate -> res (list prop * list bool) -> Prop :=
| ua_nil x : u_all R x [] x (Ok ([], []))
| ua_next x mp l x1 rp b x2 out : R x mp x1 (Ok (rp, b)) -> u_all R x1 l x2 out ->
    u_all R x (mp :: l) x2 (match out with Ok (rs, bs) => Ok (rp :: rs, b :: bs) | Err e => Err e end)
| ua_raised x mp l x1 e : R x mp x1 (Err e) -> u_all R x (mp :: l) x1 (Err e).

Definition every (bs : list bool) : bool := forallb (fun b => b) bs.
(** A handler that raises nothing and keeps the codes of the table. *)
Definition calm (h : uhandler) : Prop :=
  (forall n ps q, (exists b, snd (h_read h n ps q) = Ok b) /\ map fst (fst (h_read h n ps q)) = map fst ps) /\
  (forall n ps p d, (exists b, snd (h_write h n ps p d) = Ok b) /\ map fst (fst (h_write h n ps p d)) = map fst ps).
