(** Model of the example device /repo/examples/device/monolight/monolight.py (and
    monolight-sense.py, which differs in the lamp it switches and in one log line). *)
From Verif Require Import PyBase BytesM EsvM MsgM PropM ObjM DbData DbM NodeM LocalM.

Definition MONO_CODE : Z := 0x029101.
Definition OPERATION_STATUS : Z := 0x80.
Definition STATUS_ON : Z := 0x30.
Definition STATUS_OFF : Z := 0x31.

(** set_property_integer(OPERATION_STATUS, v, 1) on the property table, in on and off,
    monolight.py:37-43. *)
Definition set_status (v : Z) (ps : props) : props :=
  match zget OPERATION_STATUS ps with
  | None => ps
  | Some p => zset OPERATION_STATUS (set_op_data (from_int_n v 1) p) ps
  end.

(** MonoLight.property_read_requested, monolight.py:45-50, with super_object.py:99-103. *)
Definition mono_read (_ : nat) (ps : props) (p : option oprop) : props * res bool :=
  match p with
  | None => (ps, Err AttributeError)
  | Some p =>
      match zget (op_code p) ps with
      | None => (ps, Err AttributeError)
      | Some q => (ps, Ok (is_read_enabled q))
      end
  end.
(** MonoLight.property_write_requested, monolight.py:52-63, with super_object.py:105-109. *)
Definition mono_write (_ : nat) (ps : props) (p : oprop) (data : list Z) : props * res bool :=
  if op_code p =? OPERATION_STATUS then
    if negb (zlen (op_data p) =? 1) then (ps, Ok false)
    else
      match data with
      | [] => (ps, Err IndexError)
      | x :: _ =>
          if negb (x =? STATUS_ON) && negb (x =? STATUS_OFF) then (ps, Ok false)
          else if x =? STATUS_ON then (set_status STATUS_ON ps, Ok true)
          else (set_status STATUS_OFF ps, Ok true)
      end
  else
    (ps, Ok (match zget (op_code p) ps with None => false | Some q => is_write_enabled q end)).
Definition mono_handler : handler := HUser (mkuhandler mono_read mono_write).

Section Mono.
Context {PS : PySet}.

(** MonoLight(), monolight.py:30-32. *)
Definition new_mono : obj * res unit :=
  match new_standard (PInt MONO_CODE) with
  | (o, Ok _) => (set_request_handler mono_handler o, Ok tt)
  | x => x
  end.
(** MonoLightNode(), monolight.py:70-73. *)
Definition new_mono_node (r : np_random) : lnode * res bool :=
  match new_local_node r with
  | (s, Err e) => (s, Err e)
  | (s, Ok _) =>
      match new_mono with
      | (_, Err e) => (s, Err e)
      | (o, Ok _) => local_add_object (Some o) s
      end
  end.

End Mono.

(** self.dev.on() and off(): dev is the object in the table. *)
Definition switch (v : Z) (s : lnode) : lnode :=
  match zget MONO_CODE (ln_objs s) with
  | None => s
  | Some o => put_obj MONO_CODE (set_o_props (set_status v (o_props o)) o) s
  end.
(** MonoLightNode.start and stop, monolight.py:75-81. *)
Definition mono_start (w : os) (tr : trace) (s : lnode) : lnode * trace * res bool :=
  local_start w tr (switch STATUS_ON s) [].
Definition mono_stop (tr : trace) (s : lnode) : lnode * trace * bool :=
  local_stop tr (switch STATUS_OFF s).
