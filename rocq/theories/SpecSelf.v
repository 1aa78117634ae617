(** Specification for what a node says about itself over its life (C75). *)
From Verif Require Import PyBase MsgM PropM ObjM DbM SpecWire SpecObj SpecReq NodeM LocalM CtrlM SpecNode SpecProf SpecLocal SpecSrv SpecLife.

(** Calls and datagrams, except a replacement of the objects behind the node's back (see [turn_user])
    and the addition of a second object with the code of the profile. *)
Definition gentle (a : act) : Prop :=
  match a with
  | AObjs _ => False
  | AAdd (Some o) => o_code o <> 0x0EF001
  | ARecv _ d => bytes_ok (fst d)
  | _ => True
  end.
(** The user of a node may change its objects other than the profile in any way, but not their codes. *)
Definition user_changes (old new : list (Z * obj)) : Prop :=
  dkeys new = dkeys old /\ zget 0x0EF001 new = zget 0x0EF001 old /\ forall k o, In (k, o) new -> o_code o = k.
(** [turns w x l y]: a life that leads from [x] to [y] and in which objects with the codes [l] were added. *)
Inductive turns {PS : PySet} (w : os) : lnode * trace -> list Z -> lnode * trace -> Prop :=
| turn_none x : turns w x [] x
| turn_act x l y a : turns w x l y -> gentle a ->
    turns w x (l ++ match a with AAdd (Some o) => [o_code o] | _ => [] end) (act_step w y a)
| turn_user x l s tr objs : turns w x l (s, tr) -> user_changes (ln_objs s) objs ->
    turns w x l (set_ln_node (mknode (ln_addr s) objs) s, tr).
