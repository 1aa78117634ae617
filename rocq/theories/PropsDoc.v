(** Property C102: the device of the documentation. *)
From Verif Require Import PyBase BytesM EsvM MsgM PropM ObjM DbData DbM NodeM LocalM
  SpecWire SpecObj SpecReq SpecNode SpecLocal SpecMono DocM SpecDoc DocP.

(** C102: exactly what the device answers and stores, for every history of messages. *)
Theorem C102_exact : forall o0 ms d o, has_property 0x80 o0 = true -> doc_device doc_handler o0 d o ->
  let s := doc_run (fun c => has_property c o0) d ms in
  obj_outs o ms = snd s /\ doc_device doc_handler o0 (fst s) (obj_run o ms).
Proof. exact L_C102_exact. Qed.
Print Assumptions C102_exact.
Definition dx_dev (d : list Z) : obj := mkobj 0x029101 "Mono functional lighting" [(0x80, mkoprop 0x80 d 1 1 1); (0xB0, mkoprop 0xB0 [0x42] 1 2 0)] doc_handler 0 [] CObject.
Lemma dx_ok d : a_light doc_handler (dx_dev d).
Proof.
  split; [reflexivity|]. intros c p. unfold get_property. cbn [dx_dev o_props dget]. destruct (Z.eqb_spec c 0x80) as [->|]; [intros [= <-]; reflexivity|].
  destruct (Z.eqb_spec c 0xB0) as [->|]; [intros [= <-]; reflexivity|discriminate].
Qed.
Definition dx_msg (e : Z) (ps ss gs : list prop) : msg := mkmsg 1 0x05FF01 0x029101 e ps ss gs None None.
(** A refused value, off, a read, a write to another property, on together with a read. *)
Definition dx_msgs : list msg :=
  [dx_msg 0x61 [mkprop 0x80 [0x32]] [] []; dx_msg 0x61 [mkprop 0x80 [0x31]] [] []; dx_msg 0x62 [mkprop 0x80 []; mkprop 0xB0 []] [] [];
   dx_msg 0x60 [mkprop 0xB0 [0x41]] [] []; dx_msg 0x6E [] [mkprop 0x80 [0x30]] [mkprop 0x80 []]].
Example C102_ex : fst (doc_run (fun c => has_property c (dx_dev [])) [0x30] (firstn 4 dx_msgs)) = [0x31] /\
  map (fun a => match a with Ok (Some m) => (m_ESV m, m_props m, m_gets m) | _ => (0, [], []) end) (obj_outs (dx_dev [0x30]) dx_msgs)
  = [(0x50, [mkprop 0x80 [0x32]], []); (0x71, [mkprop 0x80 []], []); (0x52, [mkprop 0x80 [0x31]; mkprop 0xB0 []], []);
     (0x50, [mkprop 0xB0 [0x41]], []); (0x7E, [], [mkprop 0x80 [0x30]])].
Proof. split; vm_compute; reflexivity. Qed.

(** C102: reads of property 0x80 return its content, other reads are refused. *)
Theorem C102_read : forall o d m, a_light doc_handler o -> status o = Some d -> m_ESV m = 0x62 -> m_sets m = [] -> m_gets m = [] ->
  (m_props m = [mkprop 0x80 []] ->
     snd (obj_message_received o m) = Ok (Some (mkmsg (m_TID m) (m_DEOJ m) (m_SEOJ m) 0x72 [mkprop 0x80 d] [] [] None None))) /\
  (forall c, c <> 0x80 -> m_props m = [mkprop c []] ->
     snd (obj_message_received o m) = Ok (Some (mkmsg (m_TID m) (m_DEOJ m) (m_SEOJ m) 0x52 [mkprop c []] [] [] None None))).
Proof. exact L_C102_read. Qed.
Print Assumptions C102_read.
(** C102: with writes of one byte, and reads of existing properties in write-read requests, the device never
    raises and its status is the last valid value written. *)
Theorem C102_register_partial : forall o ms x, a_light doc_handler o -> status o = Some [x] -> on_off x ->
  (forall m w, In m ms -> In w (status_writes m) -> length w = 1%nat) ->
  (forall m mp, In m ms -> m_ESV m = 0x6E -> In mp (m_gets m) -> has_property (p_code mp) o = true) ->
  Forall (fun a => exists b, a = Ok b) (obj_outs o ms) /\
  exists y, status (obj_run o ms) = Some [y] /\ on_off y /\ y = last (filter on_offb (concat (concat (map status_writes ms)))) x.
Proof. exact L_C102_register_partial. Qed.
Print Assumptions C102_register_partial.
Example C102_register_ex : (forall m w, In m dx_msgs -> In w (status_writes m) -> length w = 1%nat) /\
  last (filter on_offb (concat (concat (map status_writes dx_msgs)))) 0x31 = 0x30.
Proof.
  split; [|reflexivity]. intros m w I. cbn [dx_msgs In] in I. destruct I as [<-|[<-|[<-|[<-|[<-|[]]]]]]; cbn;
    repeat (intros [<-|H]; [reflexivity|revert H]); contradiction.
Qed.
(** C102: with no or several bytes of status every write is refused, for ever. *)
Theorem C102_stuck : forall o d ms m w, a_light doc_handler o -> status o = Some d -> length d <> 1%nat ->
  let o' := obj_run o ms in
  status o' = Some d /\
  (m_ESV m = 0x60 \/ m_ESV m = 0x61 -> m_props m = [mkprop 0x80 w] ->
     snd (obj_message_received o' m) = Ok (Some (mkmsg (m_TID m) (m_DEOJ m) (m_SEOJ m) 0x50 [mkprop 0x80 w] [] [] None None))).
Proof. exact L_C102_stuck. Qed.
Print Assumptions C102_stuck.
(** C102: finding.  The device as the documentation builds it has no byte of status: it refuses every write. *)
Theorem C102_new_refuted : forall (PS : PySet) r, exists s o, new_doc_node r = (s, Ok true) /\ zget 0x029101 (ln_objs s) = Some o /\
  forall ms m w, let o' := obj_run o ms in
  status o' = Some [] /\
  (m_ESV m = 0x60 \/ m_ESV m = 0x61 -> m_props m = [mkprop 0x80 w] ->
     snd (obj_message_received o' m) = Ok (Some (mkmsg (m_TID m) (m_DEOJ m) (m_SEOJ m) 0x50 [mkprop 0x80 w] [] [] None None))).
Proof. exact L_C102_new_refuted. Qed.
Print Assumptions C102_new_refuted.
(** C102: finding.  A write of two bytes is stored, and then every write is refused. *)
Theorem C102_long_refuted : forall o x y m, a_light doc_handler o -> status o = Some [x] -> m_ESV m = 0x60 \/ m_ESV m = 0x61 ->
  m_props m = [mkprop 0x80 [0x30; y]] ->
  status (obj_step o m) = Some [0x30; y] /\
  forall ms, status (obj_run (obj_step o m) ms) = Some [0x30; y].
Proof. exact L_C102_long_refuted. Qed.
Print Assumptions C102_long_refuted.
(** C102: finding.  A write without data raises IndexError. *)
Theorem C102_empty_refuted : forall o x m, a_light doc_handler o -> status o = Some [x] -> m_ESV m = 0x60 \/ m_ESV m = 0x61 ->
  m_props m = [mkprop 0x80 []] -> snd (obj_message_received o m) = Err IndexError.
Proof. exact L_C102_empty_refuted. Qed.
Print Assumptions C102_empty_refuted.
(** C102: finding.  The handler is asked about properties the device does not have, and raises. *)
Theorem C102_unknown_refuted : forall o d m c, a_light doc_handler o -> status o = Some d -> m_ESV m = 0x6E -> m_sets m = [] ->
  m_gets m = [mkprop c []] -> has_property c o = false -> snd (obj_message_received o m) = Err AttributeError.
Proof. exact L_C102_unknown_refuted. Qed.
Print Assumptions C102_unknown_refuted.
Example C102_findings_ex :
  status (obj_run (dx_dev [0x31]) [dx_msg 0x61 [mkprop 0x80 [0x30; 7]] [] []; dx_msg 0x61 [mkprop 0x80 [0x31]] [] []]) = Some [0x30; 7] /\
  snd (obj_message_received (dx_dev [0x31]) (dx_msg 0x61 [mkprop 0x80 []] [] [])) = Err IndexError /\
  snd (obj_message_received (dx_dev [0x31]) (dx_msg 0x6E [] [] [mkprop 0xC0 []])) = Err AttributeError.
Proof. repeat split; vm_compute; reflexivity. Qed.
