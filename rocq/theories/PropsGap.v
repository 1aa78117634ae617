(** Properties C02, C14, C42: further theorems. *)
From Verif Require Import PyBase BytesM EsvM MsgM PropM ObjM NodeM SpecWire SpecHex SpecObj SpecNode DbData DbM LocalM CtrlM SpecReq SpecProf SpecLocal SpecCtrl GapP.

(** C02: Message.parse_hexstring parses the bytes that the text stands for, and a text that stands for no
    bytes raises ValueError and changes nothing. *)
Theorem C02_hexstring : forall m s, (forall b, hex_text s b -> parse_hexstring m s = parse_bytes m b) /\
  ((~ exists b, hex_text s b) -> parse_hexstring m s = (m, Err ValueError)).
Proof. exact L_C02_hexstring. Qed.
Print Assumptions C02_hexstring.
Example C02_hexstring_ex :
  parse_hexstring new_msg "10810 00101"%string = (new_msg, Err ValueError) /\
  snd (parse_hexstring new_msg "108100010130010288016201"%string) <> Err ValueError /\
  parse_hexstring new_msg "108100010130010288016201800000"%string
    = parse_bytes new_msg [0x10;0x81;0;1;1;0x30;1;2;0x88;1;0x62;1;0x80;0;0]%Z.
Proof. vm_compute. repeat split; try reflexivity; discriminate. Qed.

(** C14: what set_property_data and set_property_integer return, and that a failing call changes nothing. *)
Theorem C14_results : forall h code,
  let o := table_run h (new_object PNone) in
  let known := exists p, In (TAdd p) h /\ op_code p = code in
  (forall data, (snd (set_property_data code data o) = true <-> known) /\
                (snd (set_property_data code data o) = false -> fst (set_property_data code data o) = o)) /\
  (forall v n, n < 0 -> set_property_integer code v n o = (o, Err ValueError)) /\
  (forall v n, 0 <= n -> (snd (set_property_integer code v n o) = Ok true <-> known) /\
                         (~ known -> set_property_integer code v n o = (o, Ok false))).
Proof. exact L_C14_results. Qed.
Print Assumptions C14_results.
(** C14: Object.copy copies the code, the name and the properties in their order, and neither the request
    handler nor the observers. *)
Theorem C14_copy : forall h c nm hd ob,
  (* an object with any code, name, handler and observers, after any history *)
  let o := set_o_obs ob (set_o_handler hd (set_o_name nm (set_o_code c (table_run h (new_object PNone))))) in
  let o' := copy_object o in
  o_code o' = c /\ o_name o' = nm /\ o_props o' = o_props o /\ o_handler o' = HNone /\ o_obs o' = [].
Proof. exact L_C14_copy. Qed.
Print Assumptions C14_copy.
Example C14_copy_ex :
  let h := [TAdd (mkoprop 0x80 [0x30] 1 2 0); TAdd (mkoprop 0xB0 [] 2 0 1); TData 0x80 [0x31]]%Z in
  let o := set_o_obs [3%nat] (set_o_handler HReadOnly (set_o_name "Lamp"%string (set_o_code 0x029001%Z (table_run h (new_object PNone))))) in
  o_props (copy_object o) = [(0x80, mkoprop 0x80 [0x31] 1 2 0); (0xB0, mkoprop 0xB0 [] 2 0 1)]%Z /\
  set_property_integer 0x81 5 1 o = (o, Ok false) /\ set_property_integer 0x80 5 (-1) o = (o, Err ValueError) /\
  snd (set_property_integer 0x80 5 1 o) = Ok true.
Proof. vm_compute. repeat split; reflexivity. Qed.

(** C42: every observer added to an object is told every request once, in the order of their first
    registration, however often it was added; adding one always returns true and changes nothing else. *)
Theorem C42_object : forall ns o req, o_obs o = [] ->
  let o' := fold_left (fun o n => fst (obj_add_observer n o)) ns o in
  snd (fst (obj_message_received o' req)) = firsts Nat.eqb ns /\ NoDup (firsts Nat.eqb ns) /\
  (forall n, In n (firsts Nat.eqb ns) <-> In n ns) /\ (forall n x, snd (obj_add_observer n x) = true) /\
  o_code o' = o_code o /\ o_name o' = o_name o /\ o_props o' = o_props o /\ o_handler o' = o_handler o.
Proof. exact L_C42_object. Qed.
Print Assumptions C42_object.
Example C42_object_ex :
  let o := fold_left (fun o n => fst (obj_add_observer n o)) [4; 2; 4; 2; 9]%nat (new_object PNone) in
  snd (fst (obj_message_received o new_msg)) = [4; 2; 9]%nat.
Proof. reflexivity. Qed.

(** C65: requests of the objects of a found device go to port 3610 of its address, whatever port it
    announced itself from. *)
Theorem C65_port_partial : forall w tr s c n o esv ps ip port, ln_ctl s = Some c -> byte_ok esv -> two_blocks esv = false -> fits_list ps ->
  0 <= g_tid (ln_mgr s) <= 65535 -> n_addr n = Some (ip, port) ->
  let bytes := request_bytes (g_tid (ln_mgr s) mod 65535 + 1) (o_code o) esv ps in
  (forall s' tr' r, object_send w tr s n o esv (pairs ps) = (s', tr', r) ->
     exists evs, tr' = tr ++ evs /\ tries bytes (ip, 3610) (open_ifs s) (sent evs)) /\
  (forall s' tr' m' r, object_post w tr s n o esv (pairs ps) = (s', tr', m', r) ->
     exists evs, tr' = tr ++ evs /\ tries bytes (ip, 3610) (open_ifs s) (sent evs)).
Proof. exact L_C65_port_partial. Qed.
Print Assumptions C65_port_partial.
Example C65_port_ex : node_port (mknode (Some ("10.0.0.9"%string, 50000)) []) = 3610.
Proof. reflexivity. Qed.

(** C42: an observer added to a started node is registered once at every one of its servers, after the node. *)
Theorem C42_servers : forall ns s, Forall (fun v => s_obs v = [ONode]) (g_servers (ln_mgr s)) ->
  let s' := fold_left (fun s n => local_add_observer (OUser n) s) ns s in
  g_servers (ln_mgr s') = map (fun v => mksrv (s_uni v) (s_if v) (s_open v) (s_alive v) (ONode :: map OUser (firsts Nat.eqb ns))) (g_servers (ln_mgr s)) /\
  g_tid (ln_mgr s') = g_tid (ln_mgr s) /\ ln_node s' = ln_node s /\ ln_ctl s' = ln_ctl s.
Proof. exact L_C42_servers. Qed.
Print Assumptions C42_servers.
Example C42_servers_ex :
  let s := mkln (mknode None []) InTable 1 (mkmgr 0 [mksrv true "10.0.0.2"%string true true [ONode]; mksrv false "10.0.0.2"%string true true [ONode]]) None in
  map s_obs (g_servers (ln_mgr (fold_left (fun s n => local_add_observer (OUser n) s) [4; 2; 4]%nat s))) = [[ONode; OUser 4; OUser 2]; [ONode; OUser 4; OUser 2]].
Proof. reflexivity. Qed.

(** C77: adding a listener appends it; removing one removes its first entry and nothing else, and raises
    ValueError if there is none. *)
Theorem C77_listeners : forall c l,
  add_listener l c = mkctl (c_found c) (c_req c) (c_resp c) (c_listeners c ++ [l]) /\
  (forall a b, c_listeners c = a ++ l :: b -> ~ In l a -> remove_listener l c = (mkctl (c_found c) (c_req c) (c_resp c) (a ++ b), Ok tt)) /\
  (~ In l (c_listeners c) -> remove_listener l c = (c, Err ValueError)).
Proof. exact L_C77_listeners. Qed.
Print Assumptions C77_listeners.
Example C77_listeners_ex :
  c_listeners (fst (remove_listener 2 (mkctl [] None None [1; 2; 3; 2]%nat))) = [1; 3; 2]%nat /\
  remove_listener 9 (mkctl [] None None [1; 2]%nat) = (mkctl [] None None [1; 2]%nat, Err ValueError).
Proof. split; reflexivity. Qed.
