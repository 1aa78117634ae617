(** Property C55: exchanges between a controller and a device. *)
From Verif Require Import PyBase BytesM EsvM MsgM PropM ObjM DbData DbM NodeM LocalM CtrlM
  SpecWire SpecObj SpecReq SpecNode SpecProf SpecLocal SpecSrv SpecCtrl SpecEnd MapP NodeP ProfP LocalP AnswerP CtrlP EndP.
From Verif Require Import SpecReq.

(** C55: finding.  When the first property is D5 or D6 with no data, the controller's receiving
    thread raises IndexError on the answer to the read and post_message returns None. *)
Theorem C55_exchange : forall (PS : PySet) wc wd jc jd ac an d m code o o' told rsp x,
  quiet wc -> reliable wc -> quiet wd -> reliable wd -> dest_addr d = Some an -> linked jc jd an code o x ->
  (* a new message to the object [code] that fits a datagram *)
  let q := as_received (x_ctl x) ac m in
  m_TID m = 0 -> m_DEOJ m = code -> is_request (m_ESV m) = true -> frame_msg (set_from None q) -> (length (wire q) <= 1024)%nat ->
  (* the object answers it, and not by a notification *)
  obj_message_received o q = (o', told, Ok (Some rsp)) -> m_ESV rsp <> 0x73 -> frame_msg rsp -> (length (wire rsp) <= 1024)%nat ->
  (m_ESV rsp = 0x72 -> empty_list rsp = false) ->
  exists x', transact wc wd jc jd ac an m d x = (x', Some (set_from (Some an) rsp)) /\ linked jc jd an code o' x' /\
  g_tid (ln_mgr (x_ctl x')) = next_tid (x_ctl x) /\
  forall k, k <> code -> zget k (ln_objs (x_dev x')) = zget k (ln_objs (x_dev x)).
Proof. exact L_C55_exchange. Qed.
Print Assumptions C55_exchange.
Theorem C55_write_then_read_partial : forall (PS : PySet) wc wd jc jd ac an d code o ps x,
  quiet wc -> reliable wc -> quiet wd -> reliable wd -> dest_addr d = Some an -> linked jc jd an code o x ->
  fitting o -> sendable_write o code (write_request code ps) ps ->
  (* the first property is not an empty instance or class list *)
  (forall p l, ps = p :: l -> p_code p = 0xD5 \/ p_code p = 0xD6 -> p_data p <> []) ->
  exists x1 x2 m1 m2 o1,
  transact wc wd jc jd ac an (write_request code ps) d x = (x1, Some m1) /\
  m_ESV m1 = 0x71 /\ m_SEOJ m1 = code /\ m_TID m1 = next_tid (x_ctl x) /\ m_props m1 = codes_only ps /\ m_from m1 = Some an /\
  written o ps o1 /\ linked jc jd an code o1 x1 /\
  transact wc wd jc jd ac an (read_request code (map p_code ps)) d x1 = (x2, Some m2) /\
  m_ESV m2 = 0x72 /\ m_SEOJ m2 = code /\ m_TID m2 = next_tid (x_ctl x1) /\ m_props m2 = ps /\ m_from m2 = Some an /\
  linked jc jd an code o1 x2 /\
  forall k, k <> code -> zget k (ln_objs (x_dev x2)) = zget k (ln_objs (x_dev x)).
Proof. exact L_C55_write_then_read_partial. Qed.
Print Assumptions C55_write_then_read_partial.
Theorem C55_write_then_read_refuted : exists wc wd jc jd ac an d code o ps x,
  quiet wc /\ reliable wc /\ quiet wd /\ reliable wd /\ dest_addr d = Some an /\ linked jc jd an code o x /\
  fitting o /\ sendable_write o code (write_request code ps) ps /\
  exists (PS : PySet) x1 x2 m1, transact wc wd jc jd ac an (write_request code ps) d x = (x1, Some m1) /\ m_ESV m1 = 0x71 /\
  option_map op_data (match zget code (ln_objs (x_dev x1)) with Some o1 => get_property 0xD5 o1 | None => None end) = Some [] /\ ps = [mkprop 0xD5 []] /\
  transact wc wd jc jd ac an (read_request code (map p_code ps)) d x1 = (x2, None).
Proof. exact L_C55_write_then_read_refuted. Qed.
Print Assumptions C55_write_then_read_refuted.
Theorem C55_write_read : forall (PS : PySet) wc wd jc jd ac an d code o ps x,
  quiet wc -> reliable wc -> quiet wd -> reliable wd -> dest_addr d = Some an -> linked jc jd an code o x ->
  fitting o -> sendable_write o code (write_read_request code ps (map p_code ps)) ps ->
  exists x1 m1 o1,
  transact wc wd jc jd ac an (write_read_request code ps (map p_code ps)) d x = (x1, Some m1) /\
  m_ESV m1 = 0x7E /\ m_SEOJ m1 = code /\ m_TID m1 = next_tid (x_ctl x) /\ m_sets m1 = codes_only ps /\ m_gets m1 = ps /\ m_from m1 = Some an /\
  written o ps o1 /\ linked jc jd an code o1 x1 /\
  forall k, k <> code -> zget k (ln_objs (x_dev x1)) = zget k (ln_objs (x_dev x)).
Proof. exact L_C55_write_read. Qed.
Print Assumptions C55_write_read.
(** A controller and a device with a lamp: two properties written, then read. *)
Definition ex_lamp2 : obj := mkobj 0x029101 "" [(0x80, mkoprop 0x80 [0x30] 1 1 1); (0xB0, mkoprop 0xB0 [] 1 2 0); (0x88, mkoprop 0x88 [0x42] 1 0 1)] HSuper 0 [] CObject.
Definition ex_dev2 : lnode := fst (fst (local_start good_os [] (mkln (mknode None [(0x029101, ex_lamp2)]) InTable 1 new_manager None) [])).
Definition ex_world : world := mkworld finder [] ex_dev2 [].
Definition ex_ps : list prop := [mkprop 0x80 [0x31]; mkprop 0xB0 [1; 2; 3; 255]].
Definition ex_do (m : msg) (x : world) := @transact pyset_nodup good_os good_os 2 2 ctl_addr dev_addr m (DNode (mknode (Some dev_addr) [])) x.
Example C55_premises : linked 2 2 dev_addr 0x029101 ex_lamp2 ex_world /\ sendable_write ex_lamp2 0x029101 (write_request 0x029101 ex_ps) ex_ps.
Proof.
  assert (O : online finder 2 /\ online ex_dev2 2).
  { split; (split; [vm_compute; discriminate|eexists; split; [vm_compute; reflexivity|split; reflexivity]]). }
  split.
  - split; [apply O|]. split; [do 2 eexists; split; vm_compute; reflexivity|]. split; [vm_compute; split; discriminate|].
    split; [apply O|]. split; vm_compute; reflexivity.
  - split; [split; cbn; reflexivity || discriminate|]. split; [split; [discriminate|repeat constructor; discriminate]|]. split; [repeat constructor; discriminate|].
    split; [cbn; constructor; [intros [H|[]]; discriminate H|constructor; [intros []|constructor]]|].
    split; [repeat constructor; eexists; (split; [vm_compute; reflexivity|split; reflexivity])|]. apply Nat.leb_le. reflexivity.
Qed.
Example C55_ex : exists x1 x2 x3 m1 m2 m3,
  ex_do (write_request 0x029101 ex_ps) ex_world = (x1, Some m1) /\ m_ESV m1 = 0x71 /\
  ex_do (read_request 0x029101 [0x80; 0xB0]) x1 = (x2, Some m2) /\ m_ESV m2 = 0x72 /\ m_props m2 = ex_ps /\ m_TID m2 = 2 /\
  ex_do (write_read_request 0x029101 [mkprop 0x80 [0x30]] [0x80; 0x88]) x2 = (x3, Some m3) /\ m_ESV m3 = 0x7E /\ m_gets m3 = [mkprop 0x80 [0x30]; mkprop 0x88 [0x42]].
Proof.
  do 6 eexists. split; [vm_compute; reflexivity|]. split; [reflexivity|]. split; [vm_compute; reflexivity|]. split; [reflexivity|]. split; [reflexivity|]. split; [reflexivity|].
  split; [vm_compute; reflexivity|]. split; reflexivity.
Qed.
