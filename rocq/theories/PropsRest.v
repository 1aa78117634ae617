(** Properties C28 (objects as built), C83, C84 and C85: the read-only objects and Manager.notify. *)
From Verif Require Import PyBase BytesM MsgM PropM ObjM DbData DbM NodeM LocalM CtrlM RestM
  SpecWire SpecHex SpecObj SpecMap SpecReq SpecNode SpecLocal SpecSrv MapP NodeP LocalP AnswerP SrvP RestP.

(** C02: Hex.from_string of anything. *)
Theorem C02_hex_any : hex_from_any None = Ok 0 /\ forall s b, hex_text s b -> hex_from_any (Some s) = Ok (be_val b).
Proof. exact L_C02_hex_any. Qed.
Print Assumptions C02_hex_any.
Example C02_ex_any : hex_from_any (Some "0EF001"%string) = Ok 0x0EF001 /\ hex_from_any (Some "0G"%string) = Err ValueError.
Proof. split; vm_compute; reflexivity. Qed.

(** C28: the object built by NodeProfileReadOnly(). *)
Theorem C28_built : forall (PS : PySet) r, exists o, new_node_profile_readonly r = (o, Ok tt) /\ o_code o = 0x0EF002 /\
  (forall c, In c [0x80; 0x82; 0x83; 0xBF; 0xD3; 0xD4; 0xD5; 0xD6; 0xD7] -> has_property c o = true) /\
  (forall ms, obj_run o ms = o) /\
  forall req, plain req ->
  ((m_ESV req = 0x60 \/ m_ESV req = 0x61) -> m_props req <> [] ->
     exists res, snd (obj_message_received o req) = Ok (Some res) /\ m_ESV res = 0x50) /\
  (m_ESV req = 0x6E -> m_sets req <> [] ->
     forall res, snd (obj_message_received o req) = Ok res ->
       exists r, res = Some r /\ m_ESV r = 0x5E) /\
  (m_ESV req = 0x6E -> (forall mp, In mp (m_gets req) -> has_property (p_code mp) o = true) ->
     exists res, snd (obj_message_received o req) = Ok res).
Proof. exact L_C28_built. Qed.
Print Assumptions C28_built.
Definition vx_rnd : np_random := mkrnd [1; 2; 3; 4; 5; 6; 7; 8; 9; 10; 11; 12; 13] 0x41 7.
Definition vx_ro : obj := fst (@new_node_profile_readonly pyset_nodup vx_rnd).
Definition vx_ask (esv : Z) (l : list prop) : msg := mkmsg 7 0x05FF01 0x0EF002 esv l [] [] None None.
(** 0xBF is writable by its attributes. *)
Example C28_ex_built : plain (vx_ask 0x61 [mkprop 0xBF [1; 1]]) /\ option_map can_write (get_property 0xBF vx_ro) = Some true /\
  snd (obj_message_received vx_ro (vx_ask 0x61 [mkprop 0xBF [1; 1]])) = Ok (Some (mkmsg 7 0x0EF002 0x05FF01 0x50 [mkprop 0xBF [1; 1]] [] [] None None)).
Proof. split; [repeat split|]. split; vm_compute; reflexivity. Qed.

(** C83: finding.  The read-only node profile has lost the values of the node profile, and its Set
    property map names properties that cannot be written. *)
Theorem C83_values_refuted : forall (PS : PySet) r, exists p o, new_node_profile r = (p, Ok tt) /\ new_node_profile_readonly r = (o, Ok tt) /\
  get_property_data 0x80 p = Some [0x30] /\ get_property_data 0x82 p = Some [1; 0x0D; 1; 0] /\
  get_property_data 0x83 p = Some ([0xFE; 0; 0; 0] ++ rnd_id r) /\ get_property_data 0xD6 p = Some [0] /\
  forall c, In c [0x80; 0x82; 0x83; 0xBF; 0xD3; 0xD4; 0xD5; 0xD6; 0xD7] -> get_property_data c o = Some [].
Proof. exact L_C83_values_refuted. Qed.
Print Assumptions C83_values_refuted.
Theorem C83_map_refuted : forall (PS : PySet) r, exists o l, new_node_profile_readonly r = (o, Ok tt) /\
  get_property_data 0x9E o = Some (zlen l :: l) /\ same_codes l [0x81; 0x87; 0x8F; 0x93; 0x97; 0x98; 0x99; 0xBF] /\
  forall ms, obj_run o ms = o.
Proof. exact L_C83_map_refuted. Qed.
Print Assumptions C83_map_refuted.
Example C83_ex : snd (obj_message_received vx_ro (vx_ask 0x62 [mkprop 0x82 []; mkprop 0xD6 []; mkprop 0x9E []])) =
    Ok (Some (mkmsg 7 0x0EF002 0x05FF01 0x72 [mkprop 0x82 []; mkprop 0xD6 []; mkprop 0x9E [8; 0x81; 0x87; 0x8F; 0x93; 0x97; 0x98; 0x99; 0xBF]] [] [] None None)) /\
  snd (obj_message_received (fst (@new_node_profile pyset_nodup vx_rnd)) (mkmsg 7 0x05FF01 0x0EF001 0x62 [mkprop 0x82 []; mkprop 0xD6 []] [] [] None None)) =
    Ok (Some (mkmsg 7 0x0EF001 0x05FF01 0x72 [mkprop 0x82 [1; 0x0D; 1; 0]; mkprop 0xD6 [0]] [] [] None None)).
Proof. split; vm_compute; reflexivity. Qed.

(** C84: finding.  SuperObjectReadOnly refuses writes only as long as it has no writable property. *)
Theorem C84_built_partial : (forall ms, obj_run new_super_readonly ms = new_super_readonly) /\
  forall req, plain req -> (m_ESV req = 0x60 \/ m_ESV req = 0x61) -> m_props req <> [] ->
  exists res, snd (obj_message_received new_super_readonly req) = Ok (Some res) /\ m_ESV res = 0x50.
Proof. exact L_C84_built_partial. Qed.
Print Assumptions C84_built_partial.
Theorem C84_write_refuted : forall (PS : PySet) p d seoj, can_write p = true -> ~ In (op_code p) [0x9D; 0x9E; 0x9F] ->
  exists o o' told res, add_property_super (Some p) new_super_readonly = (o, Ok true) /\
  obj_message_received o (mkmsg 1 seoj 0x0EF002 0x61 [mkprop (op_code p) d] [] [] None None) = (o', told, Ok (Some res)) /\
  m_ESV res = 0x71 /\ get_property_data (op_code p) o' = Some d.
Proof. exact L_C84_write_refuted. Qed.
Print Assumptions C84_write_refuted.
Example C84_ex : can_write (mkoprop 0x80 [0x30] 1 1 0) = true /\
  snd (obj_message_received new_super_readonly (vx_ask 0x61 [mkprop 0x80 [0x31]])) = Ok (Some (mkmsg 7 0x0EF002 0x05FF01 0x50 [mkprop 0x80 []] [] [] None None)) /\
  let o := fst (@add_property_super pyset_nodup (Some (mkoprop 0x80 [0x30] 1 1 0)) new_super_readonly) in
  o_props (fst (fst (obj_message_received o (vx_ask 0x61 [mkprop 0x80 [0x31]])))) = [(0x80, mkoprop 0x80 [0x31] 1 1 0)].
Proof. split; [reflexivity|]. split; vm_compute; reflexivity. Qed.

(** C85: finding.  Manager.notify tells an observer as often as there are servers. *)
Theorem C85_told_partial : forall (PS : PySet) w tr s a m, quiet w -> no_raise w -> ln_ctl s = None -> fitting_node s ->
  (forall i v, server_at s i = Some v -> ~ In ONone (s_obs v)) -> received_from a m -> knows_gets s m ->
  exists s' evs, mgr_notify w tr s m = (s', tr ++ evs, Ok tt) /\
  told evs = flat_map (fun v => map (fun n => (n, m)) (users (s_obs v))) (g_servers (ln_mgr s)).
Proof. exact L_C85_told_partial. Qed.
Print Assumptions C85_told_partial.
Theorem C85_once_refuted : forall (PS : PySet) w tr s l s1 tr1 ns a m, quiet w -> no_raise w ->
  local_start w tr s l = (s1, tr1, Ok true) -> ln_ctl s1 = None -> fitting_node s1 -> received_from a m -> knows_gets s1 m ->
  let s2 := fold_left (fun s n => local_add_observer (OUser n) s) ns s1 in
  exists s' evs, mgr_notify w tr1 s2 m = (s', tr1 ++ evs, Ok tt) /\
  told evs = concat (repeat (map (fun n => (n, m)) (firsts Nat.eqb ns)) (length (g_servers (ln_mgr s1)))).
Proof. exact L_C85_once_refuted. Qed.
Print Assumptions C85_once_refuted.
(** The observers of all servers are told in turn; the first that raises ends it. *)
Theorem C85_in_turn : forall (PS : PySet) w tr s m,
  mgr_notify w tr s m = notify w tr s (flat_map s_obs (g_servers (ln_mgr s))) m.
Proof. exact L_C85_in_turn. Qed.
Print Assumptions C85_in_turn.
Theorem C85_raises : forall (PS : PySet) w tr s l1 o l2 m s1 tr1 s2 tr2 e,
  flat_map s_obs (g_servers (ln_mgr s)) = l1 ++ o :: l2 ->
  notify w tr s l1 m = (s1, tr1, Ok tt) -> tell w tr1 s1 o m = (s2, tr2, Err e) ->
  mgr_notify w tr s m = (s2, tr2, Err e).
Proof. exact L_C85_raises. Qed.
Print Assumptions C85_raises.
Definition vx_node : lnode := mkln (mknode None []) InTable 1 new_manager None.
Definition vx_msg : msg := set_from (Some ("10.0.0.9"%string, 3610)) (mkmsg 1 0x05FF01 0x029101 0x62 [mkprop 0x80 []] [] [] None None).
Example C85_ex : exists s1 tr1, local_start good_os [] vx_node [] = (s1, tr1, Ok true) /\ length (g_servers (ln_mgr s1)) = 4%nat /\
  received_from ("10.0.0.9"%string, 3610) vx_msg /\ knows_gets s1 vx_msg /\ fitting_node s1 /\
  told (snd (fst (@mgr_notify pyset_nodup good_os tr1 (fold_left (fun s n => local_add_observer (OUser n) s) [5; 3; 5]%nat s1) vx_msg))) =
    [(5%nat, vx_msg); (3%nat, vx_msg); (5%nat, vx_msg); (3%nat, vx_msg); (5%nat, vx_msg); (3%nat, vx_msg); (5%nat, vx_msg); (3%nat, vx_msg)] /\
  (* before a start nobody is told anything *)
  told (snd (fst (@mgr_notify pyset_nodup good_os [] (local_add_observer (OUser 5) vx_node) vx_msg))) = [].
Proof.
  do 2 eexists. split; [vm_compute; reflexivity|]. split; [reflexivity|].
  split; [exact (proj1 (parsed_received (read_80 1) (mkmsg 1 0x05FF01 0x029101 0x62 [mkprop 0x80 []] [] [] None None) ("10.0.0.9"%string, 3610)
    ltac:(apply read_80_bytes; lia) ltac:(vm_compute; reflexivity)))|]. split; [intros E; discriminate|].
  split; [intros k o E; discriminate|]. split; vm_compute; reflexivity.
Qed.
