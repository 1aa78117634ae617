(** Properties C18-C28: answering requests (Object.message_received). *)
From Verif Require Import PyBase BytesM EsvM MsgM PropM ObjM SpecWire SpecReq ReqP.

(** A small object with the built-in handler: 80 readable and writable, 81 read only,
    82 write only. *)
Definition lamp : obj :=
  set_o_props [(0x80, mkoprop 0x80 [0x30] 1 1 1); (0x81, mkoprop 0x81 [7] 1 0 0); (0x82, mkoprop 0x82 [9] 0 1 0)]
    (new_super_object (PInt 0x029101)).
Lemma lamp_wf : wf_obj lamp.
Proof.
  intros c p. unfold get_property. cbn [lamp o_props set_o_props dget].
  destruct (Z.eqb_spec c 0x80); [intros [= <-]; auto|].
  destruct (Z.eqb_spec c 0x81); [intros [= <-]; auto|].
  destruct (Z.eqb_spec c 0x82); [intros [= <-]; auto|discriminate].
Qed.
Definition ask (esv : Z) (ps : list prop) : msg := mkmsg 7 0x05FF01 0x029101 esv ps [] [] None None.
Definition ask2 (ss gs : list prop) : msg := mkmsg 7 0x05FF01 0x029101 0x6E [] ss gs None None.

(** C18: correlation of the response, for every handler. *)
Theorem C18_correlation : forall o req o' told res,
  obj_message_received o req = (o', told, Ok (Some res)) ->
  m_TID res = m_TID req /\ m_DEOJ res = m_SEOJ req /\ m_SEOJ res = m_DEOJ req.
Proof. exact L_C18_correlation. Qed.
Print Assumptions C18_correlation.
Example C18_ex : exists o' told res,
  obj_message_received lamp (ask 0x62 [mkprop 0x80 []]) = (o', told, Ok (Some res)) /\
  m_TID res = 7 /\ m_DEOJ res = 0x05FF01 /\ m_SEOJ res = 0x029101.
Proof. eexists _, _, _. repeat split. Qed.

(** C19: the response mirrors the properties of the request, for every handler. *)
Theorem C19_mirrors : forall o req o' told res,
  obj_message_received o req = (o', told, Ok (Some res)) ->
  (m_ESV req = 0x6E -> m_props res = [] /\ map p_code (m_sets res) = map p_code (m_sets req) /\
     map p_code (m_gets res) = map p_code (m_gets req)) /\
  (m_ESV req <> 0x6E -> m_sets res = [] /\ m_gets res = [] /\
     map p_code (m_props res) = map p_code (m_props req)).
Proof. exact L_C19_mirrors. Qed.
Print Assumptions C19_mirrors.
Example C19_ex : exists o' told res,
  obj_message_received lamp (ask 0x62 [mkprop 0x81 []; mkprop 0x99 []; mkprop 0x81 []]) = (o', told, Ok (Some res)) /\
  map p_code (m_props res) = [0x81; 0x99; 0x81].
Proof. eexists _, _, _. repeat split. Qed.

(** C20: read requests. *)
Theorem C20_builtin_read : forall o req, builtin (o_handler o) -> wf_obj o -> plain req ->
  m_ESV req = 0x62 ->
  obj_message_received o req =
    (o, o_obs o, Ok (Some (mkmsg (m_TID req) (m_DEOJ req) (m_SEOJ req)
      (if all_accepted (read_answer o) (m_props req) then 0x72 else 0x52)
      (answers (read_answer o) (m_props req)) [] [] None None))).
Proof. exact L_C20_builtin_read. Qed.
Print Assumptions C20_builtin_read.
Theorem C20_any_handler : forall o req o' told r, plain req -> m_ESV req = 0x62 ->
  o_handler o <> HNone ->
  obj_message_received o req = (o', told, r) ->
  (exists e, r = Err e) \/
  (exists rs bs, reads o (m_props req) o' rs bs /\
     r = Ok (Some (mkmsg (m_TID req) (m_DEOJ req) (m_SEOJ req) (if all_true bs then 0x72 else 0x52) rs [] [] None None))).
Proof. exact L_C20_any_handler. Qed.
Print Assumptions C20_any_handler.
Theorem C20_quiet_handler : forall o req o' told res, plain req -> m_ESV req = 0x62 ->
  quiet_reader (o_handler o) ->
  obj_message_received o req = (o', told, Ok (Some res)) ->
  o_props o' = o_props o /\
  exists bs : list bool, length bs = length (m_props req) /\
    m_ESV res = (if all_true bs then 0x72 else 0x52) /\
    forall k mp, nth_error (m_props req) k = Some mp ->
      exists b, nth_error bs k = Some b /\ (b = true -> has_property (p_code mp) o = true) /\
      nth_error (m_props res) k = Some (mkprop (p_code mp)
        (if b then match get_property_data (p_code mp) o with Some d => d | None => [] end else [])).
Proof. exact L_C20_quiet_handler. Qed.
Print Assumptions C20_quiet_handler.
Example C20_ex : builtin (o_handler lamp) /\ wf_obj lamp /\ plain (ask 0x62 []) /\
  answers (read_answer lamp) [mkprop 0x80 []; mkprop 0x82 []; mkprop 0x99 []]
    = [mkprop 0x80 [0x30]; mkprop 0x82 []; mkprop 0x99 []].
Proof. split; [now left|]. split; [exact lamp_wf|]. repeat split. Qed.
Definition grumpy : uhandler :=
  mkuhandler (fun n ps _ => (ps, Ok (Nat.even n))) (fun n ps _ _ => (ps, Ok (Nat.odd n))).
Example C20_ex_user : quiet_reader (HUser grumpy) /\
  exists o' told res, obj_message_received (set_o_handler (HUser grumpy) lamp)
     (ask 0x62 [mkprop 0x80 []; mkprop 0x81 []; mkprop 0x82 []]) = (o', told, Ok (Some res)) /\
  m_props res = [mkprop 0x80 [0x30]; mkprop 0x81 []; mkprop 0x82 [9]] /\ m_ESV res = 0x52.
Proof. split; [intros n ps p; reflexivity|]. eexists _, _, _. repeat split. Qed.

(** C21: write requests. *)
Theorem C21_builtin_write : forall o req, builtin (o_handler o) -> wf_obj o -> plain req ->
  m_ESV req = 0x60 \/ m_ESV req = 0x61 ->
  exists o' r, obj_message_received o req = (o', o_obs o, Ok r) /\
    written o (m_props req) o' /\
    (forall res, r = Some res -> m_props res = answers (write_answer o) (m_props req)) /\
    (r = None -> m_ESV req = 0x60 /\ all_accepted (write_answer o) (m_props req) = true).
Proof. exact L_C21_builtin_write. Qed.
Print Assumptions C21_builtin_write.
Theorem C21_any_handler : forall o req o' told r, plain req ->
  m_ESV req = 0x60 \/ m_ESV req = 0x61 -> o_handler o <> HNone ->
  obj_message_received o req = (o', told, r) ->
  (exists e, r = Err e) \/
  (exists rs bs, writes o (m_props req) o' rs bs /\
     (r = Ok None \/ exists e, r = Ok (Some (mkmsg (m_TID req) (m_DEOJ req) (m_SEOJ req) e rs [] [] None None))) /\
     (r = Ok None -> m_ESV req = 0x60 /\ all_true bs = true)).
Proof. exact L_C21_any_handler. Qed.
Print Assumptions C21_any_handler.
Example C21_ex : exists o' res,
  obj_message_received lamp (ask 0x61 [mkprop 0x80 [0x31]; mkprop 0x81 [8]; mkprop 0x80 [0x32]]) = (o', [], Ok (Some res)) /\
  m_props res = [mkprop 0x80 []; mkprop 0x81 [8]; mkprop 0x80 []] /\
  get_property_data 0x80 o' = Some [0x32] /\ get_property_data 0x81 o' = Some [7].
Proof. eexists _, _. repeat split. Qed.

(** C22: write-and-read requests.  Finding: an unknown property in the read part makes the
    handler fail with AttributeError (after the writes have been applied). *)
Theorem C22_write_read_refuted : exists o req, builtin (o_handler o) /\ wf_obj o /\ plain req /\
  m_ESV req = 0x6E /\ snd (obj_message_received o req) = Err AttributeError.
Proof. exact L_C22_write_read_refuted. Qed.
Print Assumptions C22_write_read_refuted.
Theorem C22_write_read_partial : forall o req, builtin (o_handler o) -> wf_obj o -> plain req ->
  m_ESV req = 0x6E ->
  exists o', written o (m_sets req) o' /\
    obj_message_received o req =
      (o', o_obs o,
       if forallb (fun mp => has_property (p_code mp) o) (m_gets req) then
         Ok (Some (mkmsg (m_TID req) (m_DEOJ req) (m_SEOJ req)
              (if all_accepted (write_answer o) (m_sets req) && all_accepted (read_answer o) (m_gets req)
               then 0x7E else 0x5E)
              [] (answers (write_answer o) (m_sets req)) (answers (read_answer o') (m_gets req)) None None))
       else Err AttributeError).
Proof. exact L_C22_write_read_partial. Qed.
Print Assumptions C22_write_read_partial.
Example C22_ex : exists o' res,
  obj_message_received lamp (ask2 [mkprop 0x80 [0x31]] [mkprop 0x80 []]) = (o', [], Ok (Some res)) /\
  m_gets res = [mkprop 0x80 [0x31]] /\ m_ESV res = 0x7E.
Proof. eexists _, _. repeat split. Qed.

(** C23: response service codes.  Finding: a refused 0x61 is answered 0x50, not 0x51. *)
Theorem C23_codes_refuted : exists o req, builtin (o_handler o) /\ wf_obj o /\ plain req /\
  m_ESV req = 0x61 /\ request_ok o req = false /\
  exists res, snd (obj_message_received o req) = Ok (Some res) /\ m_ESV res = 0x50 /\
    error_service 0x61 = Some 0x51.
Proof. exact L_C23_codes_refuted. Qed.
Print Assumptions C23_codes_refuted.
Theorem C23_codes_partial : forall o req o' told r, builtin (o_handler o) -> wf_obj o -> plain req ->
  In (m_ESV req) [0x60; 0x61; 0x62; 0x6E] ->
  obj_message_received o req = (o', told, Ok r) ->
  option_map m_ESV r =
    if request_ok o req then ok_service (m_ESV req)
    else if m_ESV req =? 0x61 then Some 0x50 else error_service (m_ESV req).
Proof. exact L_C23_codes_partial. Qed.
Print Assumptions C23_codes_partial.
Theorem C23_codes_any_handler_partial : forall o req o' told r, o_handler o <> HNone -> plain req ->
  obj_message_received o req = (o', told, Ok r) ->
  (m_ESV req = 0x62 -> exists rs bs, reads o (m_props req) o' rs bs /\
     option_map m_ESV r = Some (if all_true bs then 0x72 else 0x52)) /\
  (m_ESV req = 0x61 -> exists rs bs, writes o (m_props req) o' rs bs /\
     option_map m_ESV r = Some (if all_true bs then 0x71 else 0x50)) /\
  (m_ESV req = 0x60 -> exists rs bs, writes o (m_props req) o' rs bs /\
     option_map m_ESV r = if all_true bs then None else Some 0x50).
Proof. exact L_C23_codes_any_handler_partial. Qed.
Print Assumptions C23_codes_any_handler_partial.
Example C23_ex : request_ok lamp (ask 0x60 [mkprop 0x80 [0x31]]) = true /\
  snd (obj_message_received lamp (ask 0x60 [mkprop 0x80 [0x31]])) = Ok None /\
  request_ok lamp (ask 0x60 [mkprop 0x81 [1]]) = false.
Proof. repeat split. Qed.

(** C24: finding.  A notification request with properties is always refused with 0x53. *)
Theorem C24_notification_request_refuted : exists o req, builtin (o_handler o) /\ wf_obj o /\ plain req /\
  m_ESV req = 0x63 /\ all_accepted (read_answer o) (m_props req) = true /\
  exists res, snd (obj_message_received o req) = Ok (Some res) /\ m_ESV res = 0x53.
Proof. exact L_C24_notification_request_refuted. Qed.
Print Assumptions C24_notification_request_refuted.
Theorem C24_notification_request_partial : forall o req, o_handler o <> HNone -> plain req ->
  m_ESV req = 0x63 ->
  obj_message_received o req =
    (o, o_obs o, Ok (Some (mkmsg (m_TID req) (m_DEOJ req) (m_SEOJ req)
       (match m_props req with [] => 0x73 | _ => 0x53 end)
       (map (fun mp => mkprop (p_code mp) []) (m_props req)) [] [] None None))).
Proof. exact L_C24_notification_request_partial. Qed.
Print Assumptions C24_notification_request_partial.
Example C24_ex : o_handler lamp <> HNone /\ plain (ask 0x63 [mkprop 0x80 []]).
Proof. split; [discriminate|repeat split]. Qed.

(** C25: finding.  A notification that requires a response is acknowledged only when it has
    no property. *)
Theorem C25_acknowledge_refuted : exists o req, builtin (o_handler o) /\ wf_obj o /\ plain req /\
  m_ESV req = 0x74 /\ snd (obj_message_received o req) = Ok None.
Proof. exact L_C25_acknowledge_refuted. Qed.
Print Assumptions C25_acknowledge_refuted.
Theorem C25_acknowledge_partial : forall o req, o_handler o <> HNone -> plain req ->
  m_ESV req = 0x74 ->
  obj_message_received o req =
    (o, o_obs o, Ok (match m_props req with
       | [] => Some (mkmsg (m_TID req) (m_DEOJ req) (m_SEOJ req) 0x7A [] [] [] None None)
       | _ => None end)).
Proof. exact L_C25_acknowledge_partial. Qed.
Print Assumptions C25_acknowledge_partial.
Example C25_ex : o_handler lamp <> HNone /\ plain (ask 0x74 [mkprop 0x80 [0x30]]).
Proof. split; [discriminate|repeat split]. Qed.

(** C26: messages that are not requests, and objects without a handler. *)
Theorem C26_no_answer : forall o m,
  (~ In (m_ESV m) [0x60; 0x61; 0x62; 0x63; 0x6E; 0x74] \/ o_handler o = HNone) ->
  obj_message_received o m = (o, o_obs o, Ok None).
Proof. exact L_C26_no_answer. Qed.
Print Assumptions C26_no_answer.
Example C26_ex : obj_message_received (set_o_obs [3%nat] lamp) (ask 0x73 [mkprop 0x80 [0x31]])
  = (set_o_obs [3%nat] lamp, [3%nat], Ok None).
Proof. reflexivity. Qed.

(** C27: access rights over every history.  The read side is non-interference: the data of
    properties that may not be read influences no response. *)
Theorem C27_write_prohibited : forall o ms c p, builtin (o_handler o) -> wf_obj o ->
  get_property c o = Some p -> can_write p = false ->
  get_property c (obj_run o ms) = Some p.
Proof. exact L_C27_write_prohibited. Qed.
Print Assumptions C27_write_prohibited.
Theorem C27_attributes_kept : forall o ms, builtin (o_handler o) -> wf_obj o ->
  o_handler (obj_run o ms) = o_handler o /\ o_code (obj_run o ms) = o_code o /\
  dkeys (o_props (obj_run o ms)) = dkeys (o_props o) /\ wf_obj (obj_run o ms) /\
  forall c p, get_property c o = Some p ->
    exists d, get_property c (obj_run o ms) = Some (set_op_data d p).
Proof. exact L_C27_attributes_kept. Qed.
Print Assumptions C27_attributes_kept.
Theorem C27_read_prohibited : forall ms o o', secret_eq o o' -> builtin (o_handler o) -> wf_obj o ->
  obj_outs o ms = obj_outs o' ms /\ secret_eq (obj_run o ms) (obj_run o' ms).
Proof. exact L_C27_read_prohibited. Qed.
Print Assumptions C27_read_prohibited.
Example C27_ex : get_property 0x81 lamp = Some (mkoprop 0x81 [7] 1 0 0) /\ can_write (mkoprop 0x81 [7] 1 0 0) = false /\
  secret_eq lamp (set_o_props [(0x80, mkoprop 0x80 [0x30] 1 1 1); (0x81, mkoprop 0x81 [7] 1 0 0); (0x82, mkoprop 0x82 [66] 0 1 0)] lamp).
Proof.
  split; [reflexivity|]. split; [reflexivity|]. split; [reflexivity|].
  repeat (apply Forall2_cons; [cbn; auto|]). apply Forall2_nil.
Qed.

(** C28: the read-only handler (NodeProfileReadOnly). *)
Theorem C28_no_change : forall o ms, o_handler o = HReadOnly -> wf_obj o -> NoDup (dkeys (o_props o)) ->
  obj_run o ms = o.
Proof. exact L_C28_no_change. Qed.
Print Assumptions C28_no_change.
Theorem C28_refuses : forall o req, o_handler o = HReadOnly -> wf_obj o -> plain req ->
  ((m_ESV req = 0x60 \/ m_ESV req = 0x61) -> m_props req <> [] ->
     exists res, snd (obj_message_received o req) = Ok (Some res) /\ m_ESV res = 0x50) /\
  (m_ESV req = 0x6E -> m_sets req <> [] ->
     forall res, snd (obj_message_received o req) = Ok res ->
       exists r, res = Some r /\ m_ESV r = 0x5E) /\
  (m_ESV req = 0x6E -> (forall mp, In mp (m_gets req) -> has_property (p_code mp) o = true) ->
     exists res, snd (obj_message_received o req) = Ok res).
Proof. exact L_C28_refuses. Qed.
Print Assumptions C28_refuses.
Example C28_ex : let o := set_o_handler HReadOnly lamp in
  o_handler o = HReadOnly /\ wf_obj o /\ NoDup (dkeys (o_props o)) /\
  snd (obj_message_received o (ask 0x60 [mkprop 0x80 [0x31]]))
    = Ok (Some (mkmsg 7 0x029101 0x05FF01 0x50 [mkprop 0x80 [0x31]] [] [] None None)).
Proof.
  split; [reflexivity|]. split; [exact lamp_wf|]. split; [|reflexivity].
  cbn. repeat (apply NoDup_cons; [cbn; lia|]). apply NoDup_nil.
Qed.
