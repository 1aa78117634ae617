(** Specification for the example light (C72). *)
From Verif Require Import PyBase MsgM PropM ObjM SpecReq.

(** 0x30 is "on", 0x31 is "off" (ECHONET Lite, operation status, EPC 0x80). *)
Definition on_off (x : Z) : Prop := x = 0x30 \/ x = 0x31.
Definition on_offb (x : Z) : bool := (x =? 0x30) || (x =? 0x31).
(** The data a message asks to write to the operation status, in order. *)
Definition writes_of (m : msg) : list prop :=
  if (m_ESV m =? 0x60) || (m_ESV m =? 0x61) then m_props m else if m_ESV m =? 0x6E then m_sets m else [].
Definition status_writes (m : msg) : list (list Z) :=
  map p_data (filter (fun mp => p_code mp =? 0x80) (writes_of m)).
(** What the light makes of them: with one byte of status a write that begins with on or off is
    stored whole, an empty one raises and ends the request, others are refused; with any other
    status every write is refused. *)
Fixpoint light (d : list Z) (ws : list (list Z)) : list Z :=
  match ws with
  | [] => d
  | w :: r =>
      match d, w with
      | [_], [] => d
      | [_], x :: _ => if on_offb x then light w r else light d r
      | _, _ => light d r
      end
  end.
Definition a_light (h : handler) (o : obj) : Prop := o_handler o = h /\ wf_obj o.
Definition status (o : obj) : option (list Z) := option_map op_data (get_property 0x80 o).
