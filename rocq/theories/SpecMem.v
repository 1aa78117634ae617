(** What a controller remembers of the nodes it has found (C105). *)
From Verif Require Import PyBase MsgM PropM ObjM DbM SpecWire SpecReq NodeM LocalM CtrlM SpecNode SpecLocal SpecCtrl.

(** A message whose data a controller records. *)
Definition tells (m : msg) : bool := ((m_ESV m =? 0x72) || (m_ESV m =? 0x73)) && (m_DEOJ m =? 0x0EF001) && negb (empty_list m).
(** The data heard from [ip] since its last instance list; None before the first one. *)
Definition hears (ip : string) (st : option (list prop)) (m : msg) : option (list prop) :=
  if String.eqb (from_ip m) ip then
    match announces m with
    | Some _ => Some (m_props m)
    | None => if tells m then option_map (fun l => l ++ m_props m) st else st
    end
  else st.
Definition heard (ip : string) (ms : list msg) : option (list prop) := fold_left (hears ip) ms None.
(** [o] has the properties of [fresh], with the last data of [l]. *)
Definition as_told (fresh : obj) (l : list prop) (o : obj) : Prop :=
  forall c, get_property c o =
    match get_property c fresh with
    | None => None
    | Some q => Some (match last_data c l with Some d => set_op_data d q | None => q end)
    end.
(** What [ip] told in [ms]. *)
Definition told_by (ip : string) (ms : list msg) : list prop :=
  flat_map m_props (filter (fun m => String.eqb (from_ip m) ip && tells m) ms).
