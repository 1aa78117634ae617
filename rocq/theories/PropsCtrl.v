(** Properties C45-C50, C61 and C65: controllers. *)
From Verif Require Import PyBase BytesM MsgM PropM ObjM DbData DbM NodeM LocalM CtrlM
  SpecWire SpecObj SpecReq SpecNode SpecProf SpecLocal SpecCtrl MapP NodeP ProfP LocalP AnswerP CtrlP.

(** A started controller with two listeners. *)
Definition ex_c : lnode := fst (fst (local_start good_os [] (mkln (mknode None []) InTable 1 new_manager (Some (mkctl [] None None [1; 2]%nat))) [])).
Definition ex_ip : addr := ("10.0.0.9"%string, 3610).
Definition ex_ip2 : addr := ("10.0.0.8"%string, 3610).
(** Instance lists, and data of the node profile. *)
Definition ex_list (codes : list Z) : msg :=
  mkmsg 0 0x0EF001 0x0EF001 0x73 [mkprop 0xD5 (zlen codes :: flat_map (be 3) codes)] [] [] None None.
Definition ex_data (code : Z) (d : list Z) : msg :=
  mkmsg 0 0x0EF001 0x0EF001 0x73 [mkprop code d] [] [] None None.
Definition from (a : addr) (m : msg) : msg := set_from (Some a) m.
Definition ex_after (ms : list msg) : lnode * trace * list (res unit) := @received_all pyset_nodup good_os [] ex_c ms.
Definition ex_hist : list msg :=
  [from ex_ip (ex_list [0x029101]); from ex_ip2 (ex_list [0x013001; 0x013001]); from ex_ip (ex_list [0x029102; 0x05FF01]); from ex_ip2 (ex_data 0x83 [1])].
Lemma ex_received : Forall (fun m => exists a, received_from a m) ex_hist.
Proof.
  repeat constructor; eexists; eexists; (split; [|reflexivity]);
    (split; [|split]; [|repeat constructor; unfold byte_ok; cbn; lia|reflexivity]);
    (split; [unfold byte_ok; cbn; lia|]); cbn -[Z.le]; (split; [cbn; lia|]); repeat constructor; try (cbn; lia); unfold byte_ok; cbn; lia.
Qed.

(** C45: finding.  A first property D5 or D6 without data raises an exception; the claim holds
    for all other messages. *)
Theorem C45_instance_list : forall d codes, bytes_ok d ->
  (instance_list d = Some codes <->
   (exists tail, d = zlen codes :: flat_map (be 3) codes ++ tail) /\ Forall (fun c => 0 <= c < 2 ^ 24) codes).
Proof. exact L_C45_instance_list. Qed.
Print Assumptions C45_instance_list.
Theorem C45_parse_partial : forall (PS : PySet) a m, typed m -> empty_list m = false ->
  exists n, new_remote (Some a) = (n, Ok tt) /\ map o_code (node_objects n) = [0x0EF001] /\
  exists n', remote_parse m n = (n', Ok (isSome (carries_list m))) /\ n_addr n' = Some a /\
  match carries_list m with
  | Some codes => map o_code (node_objects n') = firsts Z.eqb (0x0EF001 :: codes) /\
                  forall k o, get_object (PInt k) n' = Some o -> new_standard (PInt k) = (o, Ok tt)
  | None => n' = n
  end.
Proof. exact L_C45_parse_partial. Qed.
Print Assumptions C45_parse_partial.
Theorem C45_parse_refuted : forall (PS : PySet) m n, typed m -> empty_list m = true -> remote_parse m n = (n, Err IndexError).
Proof. exact L_C45_parse_refuted. Qed.
Print Assumptions C45_parse_refuted.
Example C45_ex : carries_list (ex_list [0x029101; 0x013001]) = Some [0x029101; 0x013001] /\
  map o_code (node_objects (fst (@remote_parse pyset_nodup (ex_list [0x029101; 0x013001; 0x029101]) (fst (@new_remote pyset_nodup (Some ex_ip)))))) = [0x0EF001; 0x029101; 0x013001] /\
  carries_list (ex_data 0xD6 [2; 0x02; 0x91; 0x01; 0x01; 0x30]) = None /\ empty_list (ex_data 0xD5 []) = true.
Proof. repeat split; vm_compute; reflexivity. Qed.

(** C46. *)
Theorem C46_table : forall (PS : PySet) w tr s c ms s' tr' rs, quiet w -> ln_ctl s = Some c -> c_found c = [] ->
  Forall (fun m => exists a, received_from a m) ms -> received_all w tr s ms = (s', tr', rs) ->
  exists c', ln_ctl s' = Some c' /\
  map node_ip (ctl_nodes c') = firsts String.eqb (announcers ms) /\
  (forall n, In n (ctl_nodes c') -> exists codes, last_list (node_ip n) ms = Some codes /\
     map o_code (node_objects n) = firsts Z.eqb (0x0EF001 :: codes)) /\
  (forall w1 t ip, get_node w1 t c' (GATup ip) = Ok (find (fun n => String.eqb (node_ip n) ip) (ctl_nodes c'))).
Proof. exact L_C46_table. Qed.
Print Assumptions C46_table.
Example C46_ex : quiet good_os /\ Forall (fun m => exists a, received_from a m) ex_hist /\
  exists s' tr' c', ex_after ex_hist = (s', tr', [Ok tt; Ok tt; Ok tt; Ok tt]) /\ ln_ctl s' = Some c' /\
  map node_ip (ctl_nodes c') = ["10.0.0.9"; "10.0.0.8"]%string /\
  map (fun n => map o_code (node_objects n)) (ctl_nodes c') = [[0x0EF001; 0x029102; 0x05FF01]; [0x0EF001; 0x013001]].
Proof. split; [exact good_quiet|]. split; [exact ex_received|]. do 3 eexists. split; [vm_compute; reflexivity|]. split; [reflexivity|]. split; reflexivity. Qed.

(** C47. *)
Theorem C47_round_trip : forall (PS : PySet) c0 r0 s0 ops w tr0 l0 s1 tr1 ms s2 tr2 rs
    wc trc sc c sc1 trc1 rc evc x ac,
  (* a node with up to 84 devices, started, after any received messages *)
  new_local c0 r0 = (s0, Ok tt) -> no_profile ops ->
  let s := fst (local_adds ops s0) in let l := device_codes (node_codes s) in
  zlen l <= 84 -> Forall (fun k => 0 <= k < 2 ^ 24) l ->
  local_start w tr0 s l0 = (s1, tr1, Ok true) ->
  Forall (fun m => exists a, received_from a m) ms -> received_all w tr1 s1 ms = (s2, tr2, rs) ->
  quiet w -> reliable w ->
  (* a controller searches; [x] is one of the datagrams it sends *)
  quiet wc -> ln_ctl sc = Some c -> 0 <= g_tid (ln_mgr sc) <= 65535 -> ctl_search wc trc sc = (sc1, trc1, rc) -> trc1 = trc ++ evc -> In x (sent evc) ->
  exists q, parse_bytes new_msg (send_bytes x) = (q, Ok true) /\ snd (fst x) = ("224.0.23.0"%string, 3610) /\
  (* the node receives it from address [ac] and answers with one datagram *)
  forall s3 tr3 r3, node_received w tr2 s2 (set_from (Some ac) q) = (s3, tr3, r3) ->
  exists evs i b n rsp, tr3 = tr2 ++ evs /\ sent evs = [(i, b, ac, Ok n)] /\ r3 = Ok tt /\ parse_bytes new_msg b = (rsp, Ok true) /\
  (* which the controller, in any state, receives from the node's address [an] *)
  forall an trn sn cn sn' trn' rn, ln_ctl sn = Some cn -> node_received wc trn sn (set_from (Some an) rsp) = (sn', trn', rn) ->
  rn = Ok tt /\ exists cn' nd, ln_ctl sn' = Some cn' /\ get_node wc trn' cn' (GATup (fst an)) = Ok (Some nd) /\
  n_addr nd = Some an /\ map o_code (node_objects nd) = 0x0EF001 :: l.
Proof. exact L_C47_round_trip. Qed.
Print Assumptions C47_round_trip.
(** A node with two devices; the premises hold and the controller finds it. *)
Example C47_ex : exists s0 s1 tr1 sc1 trc1 q x rsp sn' trn' c' nd,
  let s := fst (@local_adds pyset_nodup [Some (new_object (PInt 0x029101)); Some (new_object (PInt 0x013001))] s0) in
  @new_local pyset_nodup false (mkrnd [1;2;3;4;5;6;7;8;9;10;11;12;13] 14 15) = (s0, Ok tt) /\
  device_codes (node_codes s) = [0x029101; 0x013001] /\ local_start good_os [] s [] = (s1, tr1, Ok true) /\
  ctl_search good_os [] ex_c = (sc1, trc1, Ok true) /\ map (fun x => parse_bytes new_msg (send_bytes x)) (sent trc1) = [(q, Ok true); (q, Ok true)] /\
  sent (snd (fst (@node_received pyset_nodup good_os [] s1 (from ex_ip2 q)))) = [x] /\ parse_bytes new_msg (send_bytes x) = (rsp, Ok true) /\
  @node_received pyset_nodup good_os [] ex_c (from ex_ip rsp) = (sn', trn', Ok tt) /\ ln_ctl sn' = Some c' /\
  ctl_nodes c' = [nd] /\ map o_code (node_objects nd) = [0x0EF001; 0x029101; 0x013001].
Proof.
  do 12 eexists. cbn zeta. split; [vm_compute; reflexivity|]. split; [vm_compute; reflexivity|]. split; [vm_compute; reflexivity|].
  split; [vm_compute; reflexivity|]. split; [vm_compute; reflexivity|]. split; [vm_compute; reflexivity|]. split; [vm_compute; reflexivity|].
  split; [vm_compute; reflexivity|]. split; [reflexivity|]. split; reflexivity.
Qed.

(** C48: finding.  Only messages addressed to the node profile are recorded, and on the node
    profile whatever object sent them; data of devices is never recorded. *)
Theorem C48_recorded_partial : forall (PS : PySet) w tr s c a m n o s' tr' r, quiet w -> ln_ctl s = Some c -> received_from a m ->
  m_ESV m = 0x72 \/ m_ESV m = 0x73 -> m_DEOJ m = 0x0EF001 -> announces m = None -> empty_list m = false ->
  sget (fst a) (c_found c) = Some n -> get_object (PInt 0x0EF001) n = Some o ->
  node_received w tr s m = (s', tr', r) ->
  r = Ok tt /\ exists c' n' o', ln_ctl s' = Some c' /\ dkeys (c_found c') = dkeys (c_found c) /\
  sget (fst a) (c_found c') = Some n' /\ n_addr n' = n_addr n /\
  get_object (PInt 0x0EF001) n' = Some o' /\ records (m_props m) o o' /\
  (forall k, k <> 0x0EF001 -> get_object (PInt k) n' = get_object (PInt k) n) /\
  (forall ip, ip <> fst a -> sget ip (c_found c') = sget ip (c_found c)).
Proof. exact L_C48_recorded_partial. Qed.
Print Assumptions C48_recorded_partial.
Theorem C48_devices_refuted : forall (PS : PySet) w tr s c a m s' tr' r, quiet w -> ln_ctl s = Some c -> received_from a m ->
  announces m = None -> node_received w tr s m = (s', tr', r) ->
  exists c', ln_ctl s' = Some c' /\
  forall ip n, sget ip (c_found c) = Some n -> exists n', sget ip (c_found c') = Some n' /\
  forall k, k <> 0x0EF001 -> get_object (PInt k) n' = get_object (PInt k) n.
Proof. exact L_C48_devices_refuted. Qed.
Print Assumptions C48_devices_refuted.
Example C48_ex : exists s' tr' rs c' n o,
  ex_after [from ex_ip (ex_list [0x029101]); from ex_ip (ex_data 0x83 [7])] = (s', tr', rs) /\ ln_ctl s' = Some c' /\
  ctl_nodes c' = [n] /\ get_object (PInt 0x0EF001) n = Some o /\ data_at o 0x83 = Some [7] /\ data_at o 0x82 = Some [].
Proof. do 6 eexists. split; [vm_compute; reflexivity|]. split; [reflexivity|]. split; [reflexivity|]. split; vm_compute; [reflexivity|]. split; reflexivity. Qed.
(** A device answers a read of its property 80 to the controller's node profile: the value is
    recorded on the node profile of the node instead of the device. *)
Example C48_ex_device : exists s' tr' rs c' n o o',
  ex_after [from ex_ip (ex_list [0x029101]); from ex_ip (mkmsg 9 0x029101 0x0EF001 0x72 [mkprop 0x80 [0x31]] [] [] None None)] = (s', tr', rs) /\
  ln_ctl s' = Some c' /\ ctl_nodes c' = [n] /\ get_object (PInt 0x0EF001) n = Some o /\ get_object (PInt 0x029101) n = Some o' /\
  data_at o 0x80 = Some [0x31] /\ data_at o' 0x80 = Some [].
Proof. do 7 eexists. split; [vm_compute; reflexivity|]. split; [reflexivity|]. split; [reflexivity|]. split; [vm_compute; reflexivity|]. split; [vm_compute; reflexivity|]. split; reflexivity. Qed.

(** C49: finding.  node_updated is never called; node_add is called for every announcement, and
    again for every change. *)
Theorem C49_calls_partial : forall (PS : PySet) w tr s c ms s1 tr1 rs a m s2 tr2 r, quiet w -> ln_ctl s = Some c -> c_found c = [] ->
  Forall (fun m => exists a, received_from a m) ms -> received_all w tr s ms = (s1, tr1, rs) ->
  received_from a m -> node_received w tr1 s1 m = (s2, tr2, r) ->
  exists c1 evs, ln_ctl s1 = Some c1 /\ c_listeners c1 = c_listeners c /\ tr2 = tr1 ++ evs /\ lcalls evs = calls_due c1 m.
Proof. exact L_C49_calls_partial. Qed.
Print Assumptions C49_calls_partial.
Theorem C49_updated_refuted : forall (PS : PySet) c m l ip, ~ In (CNodeUpd l ip) (calls_due c m).
Proof. exact L_C49_updated_refuted. Qed.
Print Assumptions C49_updated_refuted.
Theorem C49_added_refuted : forall (PS : PySet) c m l codes, announces m = Some codes -> In l (c_listeners c) ->
  exists a b d, calls_due c m = a ++ [CNodeAdd l (from_ip m)] ++ b ++ [CNodeAdd l (from_ip m)] ++ d.
Proof. exact L_C49_added_refuted. Qed.
Print Assumptions C49_added_refuted.
Example C49_ex : exists s' tr' rs, ex_after [from ex_ip (ex_list [0x029101]); from ex_ip (ex_data 0x83 [7]); from ex_ip (ex_data 0x83 [7])] = (s', tr', rs) /\
  lcalls tr' = let ip := fst ex_ip in let p := mkprop 0xD5 [1; 0x02; 0x91; 0x01] in let q := mkprop 0x83 [7] in
    [CNodeAdd 1 ip; CNodeAdd 2 ip; CPropUpd 1 ip 0x0EF001 p; CPropUpd 2 ip 0x0EF001 p; CObjUpd 1 ip 0x0EF001; CObjUpd 2 ip 0x0EF001;
     CNodeAdd 1 ip; CNodeAdd 2 ip; CPropUpd 1 ip 0x0EF001 q; CPropUpd 2 ip 0x0EF001 q; CObjUpd 1 ip 0x0EF001; CObjUpd 2 ip 0x0EF001;
     CNodeAdd 1 ip; CNodeAdd 2 ip].
Proof. do 3 eexists. split; vm_compute; reflexivity. Qed.

(** C50: finding.  Exactly which messages raise which exception; among them every read response
    not addressed to a node profile. *)
Theorem C50_survives_partial : forall (PS : PySet) w tr s c a m s' tr' r, quiet w -> no_raise w -> ln_ctl s = Some c ->
  fitting_node s -> received_from a m -> knows_gets s m -> node_received w tr s m = (s', tr', r) ->
  forall e, r = Err e <-> raises c m e.
Proof. exact L_C50_survives_partial. Qed.
Print Assumptions C50_survives_partial.
Theorem C50_device_refuted : forall (PS : PySet) w tr s c a m s' tr' r, quiet w -> ln_ctl s = Some c -> received_from a m ->
  m_ESV m = 0x72 \/ m_ESV m = 0x73 -> m_DEOJ m <> 0x0EF001 -> node_received w tr s m = (s', tr', r) -> r = Err AttributeError /\ s' = s.
Proof. exact L_C50_device_refuted. Qed.
Print Assumptions C50_device_refuted.
Theorem C50_unknown_refuted : forall (PS : PySet) w tr s c a m s' tr' r, quiet w -> ln_ctl s = Some c -> received_from a m ->
  m_ESV m = 0x72 \/ m_ESV m = 0x73 -> m_DEOJ m = 0x0EF001 -> empty_list m = false -> announces m = None -> sget (fst a) (c_found c) = None ->
  node_received w tr s m = (s', tr', r) -> r = Err AttributeError.
Proof. exact L_C50_unknown_refuted. Qed.
Print Assumptions C50_unknown_refuted.
Theorem C50_empty_refuted : forall (PS : PySet) w tr s c a m s' tr' r, quiet w -> ln_ctl s = Some c -> received_from a m ->
  m_ESV m = 0x72 \/ m_ESV m = 0x73 -> m_DEOJ m = 0x0EF001 -> empty_list m = true ->
  node_received w tr s m = (s', tr', r) -> r = Err IndexError.
Proof. exact L_C50_empty_refuted. Qed.
Print Assumptions C50_empty_refuted.
Example C50_ex :
  map (fun m => snd (@node_received pyset_nodup good_os [] ex_c (from ex_ip m)))
    [ex_list [0x029101]; mkmsg 9 0x029101 0x05FF01 0x72 [mkprop 0x80 [0x31]] [] [] None None; ex_data 0x83 [7]; ex_data 0xD5 []; mkmsg 9 0x029101 0x0EF001 0x71 [mkprop 0x80 []] [] [] None None]
  = [Ok tt; Err AttributeError; Err AttributeError; Err IndexError; Ok tt].
Proof. vm_compute. reflexivity. Qed.

(** C61: finding.  Every argument that is not the IP of the first node is resolved, and the
    resolver's exception ends the search. *)
Theorem C61_get_node_partial : forall w tr c, keyed c ->
  (forall ip, get_node w tr c (GATup ip) = Ok (find_ip ip c)) /\
  (forall s ip, os_resolve w tr s = Ok ip -> s = ip \/ find_ip s c = None -> get_node w tr c (GAStr s) = Ok (find_ip ip c)) /\
  (forall s, (forall n, In n (ctl_nodes c) -> node_ip n = s) -> get_node w tr c (GAStr s) = Ok (find_ip s c)).
Proof. exact L_C61_get_node_partial. Qed.
Print Assumptions C61_get_node_partial.
Theorem C61_get_node_refuted : forall w tr c s e n rest, keyed c -> os_resolve w tr s = Err e -> ctl_nodes c = n :: rest ->
  node_ip n <> s -> get_node w tr c (GAStr s) = Err e.
Proof. exact L_C61_get_node_refuted. Qed.
Print Assumptions C61_get_node_refuted.
Theorem C61_tables : forall (PS : PySet) w tr s c ms s' tr' rs, quiet w -> ln_ctl s = Some c -> c_found c = [] ->
  Forall (fun m => exists a, received_from a m) ms -> received_all w tr s ms = (s', tr', rs) ->
  exists c', ln_ctl s' = Some c' /\ keyed c' /\ NoDup (map node_ip (ctl_nodes c')).
Proof. exact L_C61_tables. Qed.
Print Assumptions C61_tables.
Example C61_ex : exists s' tr' rs c', ex_after ex_hist = (s', tr', rs) /\ ln_ctl s' = Some c' /\
  (exists n, get_node good_os [] c' (GATup "10.0.0.8") = Ok (Some n) /\ node_ip n = "10.0.0.8"%string) /\
  get_node good_os [] c' (GATup "10.0.0.7") = Ok None.
Proof. do 4 eexists. split; [vm_compute; reflexivity|]. split; [reflexivity|]. split; [eexists; split; vm_compute; reflexivity|reflexivity]. Qed.

(** C65: finding.  Write-read requests (6E) are sent without their properties. *)
Theorem C65_send_partial : forall w tr s c n o esv ps s' tr' r, ln_ctl s = Some c -> byte_ok esv -> two_blocks esv = false -> fits_list ps ->
  0 <= g_tid (ln_mgr s) <= 65535 -> object_send w tr s n o esv (pairs ps) = (s', tr', r) ->
  exists evs, tr' = tr ++ evs /\ length (sent evs) = length evs /\
  tries (request_bytes (g_tid (ln_mgr s) mod 65535 + 1) (o_code o) esv ps) (node_ip n, node_port n) (open_ifs s) (sent evs) /\
  send_outcome r (sent evs).
Proof. exact L_C65_send_partial. Qed.
Print Assumptions C65_send_partial.
Theorem C65_post_partial : forall w tr s c n o esv ps s' tr' m' r, ln_ctl s = Some c -> byte_ok esv -> two_blocks esv = false -> fits_list ps ->
  0 <= g_tid (ln_mgr s) <= 65535 -> object_post w tr s n o esv (pairs ps) = (s', tr', m', r) ->
  exists evs req c', tr' = tr ++ evs /\ length (sent evs) = length evs /\
  tries (request_bytes (g_tid (ln_mgr s) mod 65535 + 1) (o_code o) esv ps) (node_ip n, node_port n) (open_ifs s) (sent evs) /\
  send_outcome r (sent evs) /\ m' = Some req /\ m_TID req = g_tid (ln_mgr s) mod 65535 + 1 /\
  ln_ctl s' = Some c' /\ c_req c' = Some req /\ c_resp c' = None /\ c_found c' = c_found c.
Proof. exact L_C65_post_partial. Qed.
Print Assumptions C65_post_partial.
Theorem C65_malformed : forall w tr s n o esv a, malformed a ->
  object_send w tr s n o esv a = (s, tr, Ok false) /\ object_post w tr s n o esv a = (s, tr, None, Ok false).
Proof. exact L_C65_malformed. Qed.
Print Assumptions C65_malformed.
Theorem C65_property : forall w tr s n o p esv d,
  property_send w tr s n o p esv d = object_send w tr s n o esv (pairs [mkprop (op_code p) d]) /\
  property_post w tr s n o p esv d = object_post w tr s n o esv (pairs [mkprop (op_code p) d]).
Proof. exact L_C65_property. Qed.
Print Assumptions C65_property.
Theorem C65_write_read_refuted : forall w tr s c n o ps s' tr' r, ln_ctl s = Some c -> fits_list ps ->
  0 <= g_tid (ln_mgr s) <= 65535 -> object_send w tr s n o 0x6E (pairs ps) = (s', tr', r) ->
  exists evs, tr' = tr ++ evs /\
  tries ([0x10; 0x81] ++ be 2 (g_tid (ln_mgr s) mod 65535 + 1) ++ [0x0E; 0xF0; 0x01] ++ be 3 (o_code o) ++ [0x6E; 0; 0])
    (node_ip n, node_port n) (open_ifs s) (sent evs).
Proof. exact L_C65_write_read_refuted. Qed.
Print Assumptions C65_write_read_refuted.
Example C65_ex : exists s' tr', object_send good_os [] ex_c (mknode (Some ex_ip) []) (new_object (PInt 0x029101)) 0x60 (pairs [mkprop 0x80 [0x30]; mkprop 0xB0 []]) = (s', tr', Ok true) /\
  sent tr' = [("192.168.0.2"%string, [0x10; 0x81; 0; 1; 0x0E; 0xF0; 1; 2; 0x91; 1; 0x60; 2; 0x80; 1; 0x30; 0xB0; 0], ex_ip, Ok 17)].
Proof. do 2 eexists. split; vm_compute; reflexivity. Qed.
