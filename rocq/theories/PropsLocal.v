(** Properties C30-C33, C37, C59 and C62: what a node does with a received message. *)
From Verif Require Import PyBase BytesM MsgM PropM ObjM DbData DbM NodeM LocalM CtrlM
  SpecWire SpecObj SpecReq SpecNode SpecProf SpecLocal MapP NodeP ProfP LocalP AnswerP.

(** A node with two devices, started; a read request for the first one. *)
Definition ex_lamp (c d : Z) : obj := mkobj c "" [(0x80, mkoprop 0x80 [d] 1 1 1)] HSuper 0 [7%nat] CObject.
Definition ex_s : lnode :=
  fst (fst (local_start good_os [] (mkln (mknode None [(0x029101, ex_lamp 0x029101 0x30); (0x013001, ex_lamp 0x013001 0x31)])
    InTable 1 new_manager None) [])).
Definition ex_m (t : Z) : msg :=
  set_from (Some ("10.0.0.9"%string, 3610)) (mkmsg t 0x05FF01 0x029101 0x62 [mkprop 0x80 []] [] [] None None).
Lemma ex_m_received : received_from ("10.0.0.9"%string, 3610) (ex_m 9).
Proof.
  eexists. split; [|reflexivity]. split; [|split; [|reflexivity]].
  - split; [unfold byte_ok; cbn; lia|]. cbn. split; [cbn; lia|]. repeat constructor; cbn; lia.
  - repeat constructor.
Qed.

(** C30: only the addressed object is consulted or changed. *)
Theorem C30_addressed : forall (PS : PySet) w tr s a m s' tr' r, received_from a m ->
  node_received w tr s m = (s', tr', r) ->
  exists evs, tr' = tr ++ evs /\
  (forall k, k <> m_DEOJ m -> zget k (ln_objs s') = zget k (ln_objs s)) /\
  dkeys (ln_objs s') = dkeys (ln_objs s) /\
  ln_addr s' = ln_addr s /\ ln_prof s' = ln_prof s /\ ln_opts s' = ln_opts s /\
  g_servers (ln_mgr s') = g_servers (ln_mgr s) /\
  (forall o, zget (m_DEOJ m) (ln_objs s) = Some o ->
     (zget (m_DEOJ m) (ln_objs s') = Some o \/ zget (m_DEOJ m) (ln_objs s') = Some (obj_step o m)) /\
     (quiet w -> ln_ctl s = None \/ In (m_ESV m) [0x60; 0x61; 0x62; 0x63; 0x6E; 0x74] ->
        zget (m_DEOJ m) (ln_objs s') = Some (obj_step o m) /\
        exists rest, evs = map (fun n => EvObjObs (m_DEOJ m) n m) (o_obs o) ++ rest)) /\
  (forall c n q, In (EvObjObs c n q) evs -> c = m_DEOJ m /\ q = m) /\
  (zget (m_DEOJ m) (ln_objs s) = None ->
     sent evs = [] /\ s' = set_ln_ctl (ln_ctl s') s /\ (ln_ctl s = None -> s' = s /\ evs = [])).
Proof. exact L_C30_addressed. Qed.
Print Assumptions C30_addressed.
Theorem C30_isolation : forall (PS : PySet) w tr s1 s2 a m, received_from a m -> same_but (m_DEOJ m) s1 s2 ->
  let '(s1', tr1, r1) := node_received w tr s1 m in
  let '(s2', tr2, r2) := node_received w tr s2 m in
  tr1 = tr2 /\ r1 = r2 /\ same_but (m_DEOJ m) s1' s2'.
Proof. exact L_C30_isolation. Qed.
Print Assumptions C30_isolation.
Example C30_ex : received_from ("10.0.0.9"%string, 3610) (ex_m 9) /\
  zget (m_DEOJ (ex_m 9)) (ln_objs ex_s) = Some (ex_lamp 0x029101 0x30) /\
  same_but (m_DEOJ (ex_m 9)) ex_s (put_obj 0x013001 (ex_lamp 0x013001 0xFF) ex_s) /\
  same_but (m_DEOJ (ex_m 9)) ex_s (put_obj 0x05FD01 (ex_lamp 0x05FD01 0xFF) ex_s).
Proof. split; [exact ex_m_received|]. vm_compute. repeat split. Qed.

(** C31: a response goes to the requester, a notification to the multicast group. *)
Theorem C31_destinations : forall (PS : PySet) w tr s a m s' tr' r, received_from a m ->
  node_received w tr s m = (s', tr', r) ->
  exists evs, tr' = tr ++ evs /\
  (sent evs = [] \/
   exists o o' told rsp b, zget (m_DEOJ m) (ln_objs s) = Some o /\
     obj_message_received o m = (o', told, Ok (Some rsp)) /\
     (exists t q, b = wire (set_TID t (set_SEOJ q rsp))) /\
     (if m_ESV rsp =? 0x73 then casts b ("224.0.23.0"%string, 3610) (open_ifs s) (sent evs)
      else tries b a (open_ifs s) (sent evs) /\ (length (filter delivered (sent evs)) <= 1)%nat)).
Proof. exact L_C31_destinations. Qed.
Print Assumptions C31_destinations.
Theorem C31_answered : forall (PS : PySet) w tr s a m s' tr' r o o' told rsp i ifs, quiet w -> reliable w -> received_from a m ->
  node_received w tr s m = (s', tr', r) -> open_ifs s = i :: ifs ->
  zget (m_DEOJ m) (ln_objs s) = Some o -> obj_message_received o m = (o', told, Ok (Some rsp)) -> encodable rsp ->
  exists evs b t q, tr' = tr ++ evs /\ b = wire (set_TID t (set_SEOJ q rsp)) /\ r = Ok tt /\
  (m_ESV rsp <> 0x73 -> exists n, sent evs = [(i, b, a, Ok n)]) /\
  (m_ESV rsp = 0x73 ->
     map (fun x => (fst (fst (fst x)), send_bytes x, snd (fst x))) (sent evs) = map (fun i => (i, b, ("224.0.23.0"%string, 3610))) (open_ifs s)).
Proof. exact L_C31_answered. Qed.
Print Assumptions C31_answered.
Example C31_ex : quiet good_os /\ reliable good_os /\ open_ifs ex_s = ["192.168.0.2"; "10.0.0.2"]%string /\
  snd (fst (local_received good_os [] ex_s (ex_m 9))) =
    [EvObjObs 0x029101 7 (ex_m 9);
     EvSend "192.168.0.2" [16; 129; 0; 9; 2; 145; 1; 5; 255; 1; 0x72; 1; 0x80; 1; 0x30] ("10.0.0.9"%string, 3610) (Ok 15)].
Proof. split; [exact good_quiet|]. split; [exact good_reliable|]. split; vm_compute; reflexivity. Qed.
(** A network that takes nothing on the first interface: the second one is tried. *)
Example C31_ex_retry :
  let w := mkos (os_netif good_os) (os_bind good_os) (fun _ i b _ => if String.eqb i "192.168.0.2" then Ok 0 else Ok (zlen b))
             (os_resolve good_os) (os_user good_os) in
  map (fun x => (fst (fst (fst x)), snd x)) (sent (snd (fst (local_received w [] ex_s (ex_m 9))))) =
    [("192.168.0.2", Ok 0); ("10.0.0.2", Ok 15)]%string.
Proof. vm_compute. reflexivity. Qed.

(** C32: finding.  A request with TID 0 is answered with a fresh TID; every other one keeps it. *)
Theorem C32_tid_partial : forall (PS : PySet) w tr s a d f s' tr' r, bytes_ok d -> parse_bytes new_msg d = (f, Ok true) ->
  slice d 2 4 <> [0; 0] ->
  node_received w tr s (set_from (Some a) f) = (s', tr', r) ->
  exists evs, tr' = tr ++ evs /\ forall x, In x (sent evs) -> slice (send_bytes x) 2 4 = slice d 2 4.
Proof. exact L_C32_tid_partial. Qed.
Print Assumptions C32_tid_partial.
Theorem C32_tid_refuted : exists w s a d f, bytes_ok d /\ parse_bytes new_msg d = (f, Ok true) /\
  quiet w /\ reliable w /\ ln_ctl s = None /\
  forall PS : PySet, exists s' x, node_received w [] s (set_from (Some a) f) = (s', [EvSend (fst (fst (fst x))) (send_bytes x) a (snd x)], Ok tt) /\
    slice d 2 4 = [0; 0] /\ slice (send_bytes x) 2 4 = [0; 1].
Proof. exact L_C32_tid_refuted. Qed.
Print Assumptions C32_tid_refuted.
Example C32_ex : slice (read_80 7) 2 4 = [0; 7] /\ parse_bytes new_msg (read_80 7) =
  (mkmsg 7 0x05FF01 0x029101 0x62 [mkprop 0x80 []] [] [] None None, Ok true).
Proof. split; vm_compute; reflexivity. Qed.

(** C33: finding.  _is_self_message never returns True: the option has no effect at all, and a
    node answers its own messages although ignoring them is enabled. *)
Theorem C33_self_ignored_refuted : exists w s a d f, bytes_ok d /\ parse_bytes new_msg d = (f, Ok true) /\
  is_enabled IGNORE_SELF_MESSAGE s = true /\ ln_addr s = Some a /\
  forall PS : PySet, exists s' b n i, node_received w [] s (set_from (Some a) f) = (s', [EvSend i b a (Ok n)], Ok tt).
Proof. exact L_C33_self_ignored_refuted. Qed.
Print Assumptions C33_self_ignored_refuted.
Theorem C33_option_no_effect_refuted : forall (PS : PySet) w tr s m v, node_received w tr (set_ln_opts v s) m =
  let '(s', tr', r) := node_received w tr s m in (set_ln_opts v s', tr', r).
Proof. exact L_C33_option_no_effect_refuted. Qed.
Print Assumptions C33_option_no_effect_refuted.

(** C37: finding.  Proved for up to 84 devices, after any messages received; with 85 or more the
    instance list does not fit a property and the search is not answered at all. *)
Theorem C37_discoverable_partial : forall (PS : PySet) c r s0 ops w tr0 l0 s1 tr1 ms s2 tr2 rs a m s3 tr3 x,
  new_local c r = (s0, Ok tt) -> no_profile ops ->
  let s := fst (local_adds ops s0) in let l := device_codes (node_codes s) in
  zlen l <= 84 ->
  local_start w tr0 s l0 = (s1, tr1, Ok true) ->
  Forall (fun m => exists a, received_from a m) ms -> received_all w tr1 s1 ms = (s2, tr2, rs) ->
  quiet w -> reliable w -> received_from a m ->
  m_ESV m = 0x62 -> m_DEOJ m = 0x0EF001 -> m_props m = [mkprop 0xD6 []] ->
  node_received w tr2 s2 m = (s3, tr3, x) ->
  exists evs i b n rsp, tr3 = tr2 ++ evs /\ sent evs = [(i, b, a, Ok n)] /\ x = Ok tt /\
    parse_bytes new_msg b = (rsp, Ok true) /\
    m_ESV rsp = 0x72 /\ m_SEOJ rsp = 0x0EF001 /\ m_DEOJ rsp = m_SEOJ m /\ (m_TID m <> 0 -> m_TID rsp = m_TID m) /\
    m_props rsp = [mkprop 0xD6 (zlen l :: flat_map (be 3) l)].
Proof. exact L_C37_discoverable_partial. Qed.
Print Assumptions C37_discoverable_partial.
Theorem C37_discoverable_refuted : forall (PS : PySet) c r s0, new_local c r = (s0, Ok tt) ->
  (exists ops, no_profile ops /\ zlen (device_codes (node_codes (fst (local_adds ops s0)))) = 85) /\
  forall ops w tr0 l0 s1 tr1 a m s2 tr2 x, no_profile ops ->
  85 <= zlen (device_codes (node_codes (fst (local_adds ops s0)))) ->
  local_start w tr0 (fst (local_adds ops s0)) l0 = (s1, tr1, Ok true) ->
  quiet w -> reliable w -> received_from a m ->
  m_ESV m = 0x62 -> m_DEOJ m = 0x0EF001 -> m_props m = [mkprop 0xD6 []] ->
  node_received w tr1 s1 m = (s2, tr2, x) ->
  exists evs, tr2 = tr1 ++ evs /\ sent evs = [] /\ x = Err ValueError.
Proof. exact L_C37_discoverable_refuted. Qed.
Print Assumptions C37_discoverable_refuted.
Example C37_ex : exists w s0 s1 tr1 s2 tr2 m a rsp,
  @new_local pyset_nodup false (mkrnd [1;2;3;4;5;6;7;8;9;10;11;12;13] 14 15) = (s0, Ok tt) /\
  local_start w [] (fst (@local_adds pyset_nodup [Some (new_object (PInt 0x029101)); Some (new_object (PInt 0x013001))] s0)) [] = (s1, tr1, Ok true) /\
  @node_received pyset_nodup w tr1 s1 m = (s2, tr2, Ok tt) /\
  m = set_from (Some a) (set_TID 3 search_message) /\
  map (fun x => parse_bytes new_msg (send_bytes x)) (sent tr2) = [(rsp, Ok true)] /\
  m_props rsp = [mkprop 0xD6 [2; 2; 0x91; 1; 1; 0x30; 1]].
Proof.
  exists good_os. do 5 eexists. exists (set_from (Some ("10.0.0.9"%string, 3610)) (set_TID 3 search_message)). do 2 eexists.
  split; [vm_compute; reflexivity|]. split; [vm_compute; reflexivity|]. split; [vm_compute; reflexivity|].
  split; [reflexivity|]. split; [vm_compute; reflexivity|reflexivity].
Qed.

(** C59: finding.  A Controller answers for every hosted object with the code of its profile. *)
Theorem C59_source_partial : forall (PS : PySet) w tr s a d f s' tr' r, bytes_ok d -> parse_bytes new_msg d = (f, Ok true) ->
  ln_ctl s = None \/ slice d 7 10 = [0x0E; 0xF0; 0x01] ->
  node_received w tr s (set_from (Some a) f) = (s', tr', r) ->
  exists evs, tr' = tr ++ evs /\ forall x, In x (sent evs) -> slice (send_bytes x) 4 7 = slice d 7 10.
Proof. exact L_C59_source_partial. Qed.
Print Assumptions C59_source_partial.
Theorem C59_source_refuted : exists w s a d f, bytes_ok d /\ parse_bytes new_msg d = (f, Ok true) /\
  quiet w /\ reliable w /\ ln_ctl s <> None /\
  forall PS : PySet, exists s' b n i, node_received w [] s (set_from (Some a) f) = (s', [EvSend i b a (Ok n)], Ok tt) /\
    slice d 7 10 = [2; 0x91; 1] /\ slice b 4 7 = [0x0E; 0xF0; 0x01].
Proof. exact L_C59_source_refuted. Qed.
Print Assumptions C59_source_refuted.
Example C59_ex : ln_ctl (lamp_node None) = None /\ slice (read_80 7) 7 10 = [2; 0x91; 1].
Proof. split; reflexivity. Qed.

(** C62: finding.  A write-read request naming an unknown property raises; every other sequence
    of well-formed messages is survived. *)
Theorem C62_survives_partial : forall (PS : PySet) w ms tr s s' tr' rs, quiet w -> no_raise w -> ln_ctl s = None -> fitting_node s ->
  Forall (fun m => (exists a, received_from a m) /\ knows_gets s m) ms ->
  received_all w tr s ms = (s', tr', rs) ->
  length rs = length ms /\ Forall (fun r => r = Ok tt) rs /\ fitting_node s'.
Proof. exact L_C62_survives_partial. Qed.
Print Assumptions C62_survives_partial.
Theorem C62_survives_refuted : exists w s a d f, bytes_ok d /\ parse_bytes new_msg d = (f, Ok true) /\
  quiet w /\ reliable w /\ ln_ctl s = None /\ fitting_node s /\
  forall PS : PySet, exists s' tr', node_received w [] s (set_from (Some a) f) = (s', tr', Err AttributeError).
Proof. exact L_C62_survives_refuted. Qed.
Print Assumptions C62_survives_refuted.
Example C62_ex : ln_ctl ex_s = None /\ fitting_node ex_s /\ knows_gets ex_s (ex_m 9) /\ received_from ("10.0.0.9"%string, 3610) (ex_m 9).
Proof.
  split; [reflexivity|]. split; [|split; [discriminate|exact ex_m_received]].
  intros k o E. change (ln_objs ex_s) with [(0x029101, ex_lamp 0x029101 0x30); (0x013001, ex_lamp 0x013001 0x31)] in E. cbn [dget] in E.
  assert (H : exists c d, o = ex_lamp c d) by (destruct (k =? 0x029101); [injection E as <-; eauto|]; destruct (k =? 0x013001); [injection E as <-; eauto|discriminate]).
  destruct H as (c & d & ->). split; [now left|]. split.
  - intros x p G. unfold get_property in G. cbn [o_props ex_lamp dget] in G. destruct (Z.eqb_spec x 0x80) as [Ec|]; [injection G as <-; subst x; reflexivity|discriminate].
  - intros x p G. unfold get_property in G. cbn [o_props ex_lamp dget] in G. destruct (Z.eqb_spec x 0x80) as [Ec|]; [injection G as <-; cbn; lia|discriminate].
Qed.
