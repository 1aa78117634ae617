(** Property C117: requests to objects with a handler of the application. *)
From Verif Require Import PyBase MsgM PropM ObjM SpecWire SpecReq SpecUser CodecP ReqP UserP.

(** C117: read requests. *)
Theorem C117_read : forall h o req, o_handler o = HUser h -> plain req -> m_ESV req = 0x62 ->
  exists ps' n' out, u_all (u_read h false) (o_calls o, o_props o) (m_props req) (n', ps') out /\
  obj_message_received o req =
    (mkobj (o_code o) (o_name o) ps' (HUser h) n' (o_obs o) (o_cls o), o_obs o,
     match out with
     | Ok (rs, bs) => Ok (Some (mkmsg (m_TID req) (m_DEOJ req) (m_SEOJ req) (if every bs then 0x72 else 0x52) rs [] [] None None))
     | Err e => Err e
     end).
Proof. exact L_C117_read. Qed.
Print Assumptions C117_read.
(** C117: write requests. *)
Theorem C117_write : forall h o req, o_handler o = HUser h -> plain req -> m_ESV req = 0x60 \/ m_ESV req = 0x61 ->
  exists ps' n' out, u_all (u_write h) (o_calls o, o_props o) (m_props req) (n', ps') out /\
  obj_message_received o req =
    (mkobj (o_code o) (o_name o) ps' (HUser h) n' (o_obs o) (o_cls o), o_obs o,
     match out with
     | Ok (rs, bs) =>
         if every bs && (m_ESV req =? 0x60) then Ok None
         else Ok (Some (mkmsg (m_TID req) (m_DEOJ req) (m_SEOJ req) (if every bs then 0x71 else 0x50) rs [] [] None None))
     | Err e => Err e
     end).
Proof. exact L_C117_write. Qed.
Print Assumptions C117_write.
(** C117: write-read requests. *)
Theorem C117_write_read : forall h o req, o_handler o = HUser h -> plain req -> m_ESV req = 0x6E ->
  exists x1 ps' n' out1, u_all (u_write h) (o_calls o, o_props o) (m_sets req) x1 out1 /\
  exists r, obj_message_received o req = (mkobj (o_code o) (o_name o) ps' (HUser h) n' (o_obs o) (o_cls o), o_obs o, r) /\
  match out1 with
  | Err e => r = Err e /\ x1 = (n', ps')
  | Ok (ss, bs) =>
      exists out2, u_all (u_read h true) x1 (m_gets req) (n', ps') out2 /\
      r = match out2 with
          | Ok (gs, cs) => Ok (Some (mkmsg (m_TID req) (m_DEOJ req) (m_SEOJ req) (if every bs && every cs then 0x7E else 0x5E) [] ss gs None None))
          | Err e => Err e
          end
  end.
Proof. exact L_C117_write_read. Qed.
Print Assumptions C117_write_read.
(** C117: other messages. *)
Theorem C117_silent : forall h o req, o_handler o = HUser h -> ~ In (m_ESV req) [0x60; 0x61; 0x62; 0x6E] ->
  fst (fst (obj_message_received o req)) = o.
Proof. exact L_C117_silent. Qed.
Print Assumptions C117_silent.
(** C117: a handler that raises nothing. *)
Theorem C117_answered : forall h o req, o_handler o = HUser h -> calm h -> plain req -> In (m_ESV req) [0x60; 0x61; 0x62; 0x6E] ->
  (m_ESV req = 0x6E -> forall mp, In mp (m_gets req) -> has_property (p_code mp) o = true) ->
  exists o' r, obj_message_received o req = (o', o_obs o, Ok r) /\ (m_ESV req <> 0x60 -> r <> None) /\ map fst (o_props o') = map fst (o_props o).
Proof. exact L_C117_answered. Qed.
Print Assumptions C117_answered.
(** C117: the specification determines the answers. *)
Theorem C117_determined : forall h wr x l x1 out1 x2 out2,
  u_all (u_read h wr) x l x1 out1 -> u_all (u_read h wr) x l x2 out2 -> x1 = x2 /\ out1 = out2.
Proof. exact L_C117_determined. Qed.
Print Assumptions C117_determined.
(** C117: reading an unknown property in a write-read request. *)
Theorem C117_unknown_boundary : forall h o req mp, o_handler o = HUser h -> plain req -> m_ESV req = 0x6E -> m_sets req = [] -> m_gets req = [mp] ->
  zget (p_code mp) (o_props o) = None -> snd (h_read h (o_calls o) (o_props o) None) = Ok true ->
  snd (obj_message_received o req) = Err AttributeError.
Proof. exact L_C117_unknown_boundary. Qed.
Print Assumptions C117_unknown_boundary.
(** A handler that counts in property 0x81 how often it was asked, refuses reads of 0x80, and raises ValueError for writes of more than two bytes. *)
Definition uh : uhandler :=
  mkuhandler (fun n ps q => (map (fun kp => if fst kp =? 0x81 then (0x81, set_op_data [Z.of_nat n] (snd kp)) else kp) ps,
                       match q with Some p => Ok (negb (op_code p =? 0x80)) | None => Ok false end))
       (fun n ps p d => (ps, if 2 <? zlen d then Err ValueError else Ok true)).
Definition uo : obj :=
  mkobj 0x029101 "" [(0x80, mkoprop 0x80 [0x30] 1 1 0); (0x81, mkoprop 0x81 [0xFF] 1 0 0); (0x82, mkoprop 0x82 [7] 1 1 0)] (HUser uh) 5 [3%nat] CSuper.
Definition um (e : Z) (ps ss gs : list prop) : msg := mkmsg 9 0x05FF01 0x029101 e ps ss gs None None.
Definition up (c : Z) (d : list Z) : prop := mkprop c d.
Example C117_read_ex :
  obj_message_received uo (um 0x62 [up 0x81 []; up 0x80 []; up 0x90 []; up 0x81 []] [] []) =
    (mkobj 0x029101 "" [(0x80, mkoprop 0x80 [0x30] 1 1 0); (0x81, mkoprop 0x81 [7] 1 0 0); (0x82, mkoprop 0x82 [7] 1 1 0)] (HUser uh) 8 [3%nat] CSuper, [3%nat],
     Ok (Some (mkmsg 9 0x029101 0x05FF01 0x52 [up 0x81 [5]; up 0x80 []; up 0x90 []; up 0x81 [7]] [] [] None None))).
Proof. vm_compute. reflexivity. Qed.
(** The second write raises: the first one is kept. *)
Example C117_write_ex :
  obj_message_received uo (um 0x61 [up 0x80 [0x31]; up 0x82 [1; 2; 3]; up 0x82 [4]] [] []) =
    (mkobj 0x029101 "" [(0x80, mkoprop 0x80 [0x31] 1 1 0); (0x81, mkoprop 0x81 [0xFF] 1 0 0); (0x82, mkoprop 0x82 [7] 1 1 0)] (HUser uh) 7 [3%nat] CSuper, [3%nat],
     Err ValueError).
Proof. vm_compute. reflexivity. Qed.
Example C117_write_read_ex :
  snd (obj_message_received uo (um 0x6E [] [up 0x82 [4; 5]] [up 0x82 []; up 0x81 []])) =
     Ok (Some (mkmsg 9 0x029101 0x05FF01 0x7E [] [up 0x82 []] [up 0x82 [4; 5]; up 0x81 [7]] None None)).
Proof. vm_compute. reflexivity. Qed.
(** A calm handler. *)
Example C117_calm_ex : calm (mkuhandler (fun n ps q => (ps, Ok (Nat.even n))) (fun n ps p d => (ps, Ok true))).
Proof. split; intros; (split; [eexists|]; reflexivity). Qed.
