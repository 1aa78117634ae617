(** The unit tests of /repo/test, run on the model.  Each [Example] is one test function; the
    asserts are its conjuncts. *)
From Verif Require Import PyBase BytesM EsvM MsgM PropM ObjM DbData DbM NodeM LocalM CtrlM SpecNode SpecEnd MapP NodeP.

Definition rt_hex (s : string) : list Z := match from_string s with Ok b => b | Err _ => [] end.
Definition rt_rnd : np_random := mkrnd [1; 2; 3; 4; 5; 6; 7; 8; 9; 10; 11; 12; 13] 0xFF 0x17.
Definition rt_msgs : list string := ["108100010EF0010EF0017201D6040105FF01"; "108100010EF0010EF0017201D607020F2001029101"]%string.
Definition accepted {A} (x : A * res bool) : bool := match snd x with Ok true => true | _ => false end.

(** util/bytes_test.py:18-37; the steps are those of the test. *)
Definition rt_steps (k step : Z) (n : nat) : bool :=
  forallb (fun i => let v := Z.of_nat i * step in match from_int v k with Ok b => to_int b =? v | Err _ => false end) (seq 0 n).
Example test_convert_bytes :
  rt_steps 1 1 256 = true /\ rt_steps 2 257 256 = true /\ rt_steps 3 65793 256 = true /\ rt_steps 4 16843009 256 = true.
Proof. repeat split; vm_compute; reflexivity. Qed.
(** util/hex_test.py:18-20 *)
Example test_hex_string : hex_from_string "62" = Ok 0x62 /\ hex_from_string "029101" = Ok 0x029101.
Proof. split; vm_compute; reflexivity. Qed.
(** protocol/esv_test.py:18-20, protocol/property_test.py:18-20, object_test.py:98-101 *)
Example test_new_esv : m_ESV new_msg = UNKNOWN.
Proof. reflexivity. Qed.
Example test_new_property : op_code (new_property 0 []) = 0 /\ op_data (new_property 0 []) = [].
Proof. split; reflexivity. Qed.

(** protocol/message_test.py:29-91 *)
Definition rt_msg_bytes : list Z :=
  [EHD1_ECHONET; EHD2_FORMAT1] ++ from_int_n 100 2 ++ from_int_n 0x0A0B0C 3 ++ from_int_n 0x0D0E0F 3 ++
  [NOTIFICATION; 3; 1; 1; 0x41; 2; 2; 0x41; 0x42; 3; 3; 0x41; 0x42; 0x43].
Definition rt_assert (m : msg) : Prop :=
  m_TID m = 100 /\ m_SEOJ m = 0x0A0B0C /\ m_DEOJ m = 0x0D0E0F /\ m_ESV m = NOTIFICATION /\ OPC m = 3 /\
  m_props m = [mkprop 1 [0x41]; mkprop 2 [0x41; 0x42]; mkprop 3 [0x41; 0x42; 0x43]].
Example test_parse_message : exists m b m',
  parse_bytes new_msg rt_msg_bytes = (m, Ok true) /\ rt_assert m /\
  to_bytes m = Ok b /\ parse_bytes new_msg b = (m', Ok true) /\ rt_assert m'.
Proof.
  do 3 eexists. split; [vm_compute; reflexivity|]. split; [vm_compute; auto 10|].
  split; [vm_compute; reflexivity|]. split; [vm_compute; reflexivity|]. vm_compute. auto 10.
Qed.
(** protocol/message_test.py:94-174 *)
Definition rt_rw_bytes : list Z :=
  [EHD1_ECHONET; EHD2_FORMAT1] ++ from_int_n 100 2 ++ from_int_n 0x0A0B0C 3 ++ from_int_n 0x0D0E0F 3 ++
  [WRITE_READ_REQUEST; 3; 1; 1; 0x41; 2; 2; 0x41; 0x42; 3; 3; 0x41; 0x42; 0x43;
   3; 1; 1; 0x78; 2; 2; 0x78; 0x79; 3; 3; 0x78; 0x79; 0x7A].
Definition rt_rw_assert (m : msg) : Prop :=
  m_TID m = 100 /\ m_SEOJ m = 0x0A0B0C /\ m_DEOJ m = 0x0D0E0F /\ m_ESV m = WRITE_READ_REQUEST /\ OPCSet m = 3 /\
  m_sets m = [mkprop 1 [0x41]; mkprop 2 [0x41; 0x42]; mkprop 3 [0x41; 0x42; 0x43]] /\ OPCGet m = 3 /\
  m_gets m = [mkprop 1 [0x78]; mkprop 2 [0x78; 0x79]; mkprop 3 [0x78; 0x79; 0x7A]].
Example test_parse_read_write_message : exists m b m',
  parse_bytes new_msg rt_rw_bytes = (m, Ok true) /\ rt_rw_assert m /\
  to_bytes m = Ok b /\ parse_bytes new_msg b = (m', Ok true) /\ rt_rw_assert m'.
Proof.
  do 3 eexists. split; [vm_compute; reflexivity|]. split; [vm_compute; auto 12|].
  split; [vm_compute; reflexivity|]. split; [vm_compute; reflexivity|]. vm_compute. auto 12.
Qed.
(** protocol/message_test.py:23-26, object_test.py:104-113 *)
Example test_message_equals : msg_eq new_msg new_msg = Ok true.
Proof. vm_compute. reflexivity. Qed.
Example test_new_message : forall s, In s rt_msgs -> exists m m', parse_hexstring new_msg s = (m, Ok true) /\
  copy_msg m = Ok m' /\ msg_eq m' m = Ok true.
Proof.
  intros s [<-|[<-|[]]]; (do 2 eexists; split; [vm_compute; reflexivity|split; vm_compute; reflexivity]).
Qed.

(** object_test.py:19-95 *)
Definition rt_code (a : pycode) (c g k i : Z) (full : bool) : bool :=
  let '(cur, r) := set_code 0 a in
  r && (cur =? c) && (group_code cur =? g) && (class_code cur =? k) && (instance_code cur =? i) &&
  (negb full || (is_code cur (PInt c) && is_code cur (PTup [g; k; i]))) &&
  is_code cur (PTup [g; k]) && is_code cur (PTup [g]) && is_group cur g && is_class cur g k.
Example test_object_code :
  rt_code (PInt 0x0EF001) 0x0EF001 0x0E 0xF0 1 true = true /\ rt_code (PInt 0x029101) 0x029101 2 0x91 1 true = true.
Proof. split; vm_compute; reflexivity. Qed.
Example test_object_tuple_code :
  rt_code (PTup [0x0E; 0xF0; 1]) 0x0EF001 0x0E 0xF0 1 true = true /\ rt_code (PTup [2; 0x91; 1]) 0x029101 2 0x91 1 true = true.
Proof. split; vm_compute; reflexivity. Qed.
Example test_object_tuple_group_class_code :
  rt_code (PTup [0x0E; 0xF0]) 0x0EF000 0x0E 0xF0 0 false = true /\ rt_code (PTup [2; 0x91]) 0x029100 2 0x91 0 false = true.
Proof. split; vm_compute; reflexivity. Qed.

(** std/database_test.py:19-36 *)
Definition starts (p : string) (x : option (Z * string)) : bool :=
  match x with Some (_, n) => prefix p n | None => false end.
Example test_manufacture_database :
  starts "Panasonic" (get_manufacturer (MAInt 0x0B)) = true /\ starts "Panasonic" (get_manufacturer (MABytes [0; 0; 0x0B])) = true /\
  starts "Sharp" (get_manufacturer (MAInt 5)) = true /\ starts "Sharp" (get_manufacturer (MABytes [0; 0; 5])) = true.
Proof. repeat split; vm_compute; reflexivity. Qed.
(** std/database_test.py:39-81 *)
Definition rt_attrs (a : pycode) (l : list (Z * (Z * Z * Z))) : bool :=
  match db_get_object a with
  | None => false
  | Some o => negb (has_property 0 o) && forallb (fun e => let '(c, (g, s, n)) := e in
      match get_property c o with
      | None => false
      | Some p => match get_attribute ATTR_GET p, get_attribute ATTR_SET p, get_attribute ATTR_ANNO p with
                  | Ok x, Ok y, Ok z => (x =? g) && (y =? s) && (z =? n)
                  | _, _, _ => false
                  end
      end) l
  end.
Example test_object_database : rt_attrs (PTup [0; 1])
  [(0x80, (REQUIRED, OPTIONAL, REQUIRED)); (0xB0, (OPTIONAL, OPTIONAL, PROHIBITED));
   (0xB1, (REQUIRED, PROHIBITED, REQUIRED)); (0xBF, (PROHIBITED, OPTIONAL, PROHIBITED))] = true.
Proof. vm_compute. reflexivity. Qed.
Example test_mra_object_database : rt_attrs (PTup [2; 0x91])
  [(0x80, (REQUIRED, REQUIRED, REQUIRED)); (0xB0, (OPTIONAL, OPTIONAL, OPTIONAL))] = true.
Proof. vm_compute. reflexivity. Qed.

(** profile_test.py:19-41 *)
Definition rt_prop (c : Z) (o : obj) : option (Z * Z) :=
  option_map (fun p => (zlen (op_data p), prop_number p)) (get_property c o).
Example test_node_profile : exists o, @new_node_profile pyset_nodup rt_rnd = (o, Ok tt) /\
  rt_prop 0x80 o = Some (1, 0x30) /\ option_map fst (rt_prop 0x83 o) = Some 17 /\
  rt_prop 0xD3 o = Some (3, 0) /\ rt_prop 0xD4 o = Some (2, 1).
Proof. eexists. split; [vm_compute; reflexivity|]. repeat split; vm_compute; reflexivity. Qed.

(** super_object_test.py:19-60: the property maps of two devices (which [set_code] of the test
    does not change: the object keeps its properties). *)
Definition rt_same (m : map_res) (l : list Z) : bool :=
  match m with
  | MapCodes c => (length c =? length l)%nat && forallb (fun x => existsb (Z.eqb x) l) c && forallb (fun x => existsb (Z.eqb x) c) l
  | _ => false
  end.
Definition rt_map (a : pycode) (c : Z) (f : oprop -> bool) : bool :=
  match @new_standard pyset_nodup a with
  | (o, Ok _) => match get_property c o with
                 | Some p => rt_same (property_map_codes (op_data p)) (codes_where f o)
                 | None => false
                 end
  | _ => false
  end.
Example test_super_object :
  rt_map (PInt 0x0EF0) 0x9D is_announce_required = true /\ rt_map (PInt 0x0EF0) 0x9E is_write_enabled = true /\
  rt_map (PInt 0x02A6) 0x9D is_announce_required = true /\ rt_map (PInt 0x02A6) 0x9E is_write_enabled = true.
Proof. repeat split; vm_compute; reflexivity. Qed.

(** node_test.py:19-39 *)
Definition rt_isSome {A} (x : option A) : bool := match x with Some _ => true | None => false end.
Example test_node : exists n n' o, set_address (Some ("127.0.0.1"%string, 80)) (new_node None) = (n, true) /\
  node_ip n = "127.0.0.1"%string /\ node_port n = PORT /\
  option_map copy_object (db_get_object (PTup [2; 0x91])) = Some o /\
  node_add_object (Some (set_o_code 0x029101 o)) n = (n', true) /\
  get_object (PInt 0x029100) n' = None /\ rt_isSome (get_object (PInt 0x029101) n') = true /\
  get_object (PTup [2; 0x91; 0]) n' = None /\ rt_isSome (get_object (PTup [2; 0x91; 1]) n') = true.
Proof.
  do 3 eexists. split; [vm_compute; reflexivity|]. split; [reflexivity|]. split; [reflexivity|].
  split; [vm_compute; reflexivity|]. split; [vm_compute; reflexivity|]. repeat split; vm_compute; reflexivity.
Qed.
Example test_local_node : exists s s', @new_local_node pyset_nodup rt_rnd = (s, Ok tt) /\
  is_enabled IGNORE_SELF_MESSAGE s = true /\ set_enabled IGNORE_SELF_MESSAGE false s = (s', true) /\
  is_enabled IGNORE_SELF_MESSAGE s' = false.
Proof. do 2 eexists. split; [vm_compute; reflexivity|]. split; [vm_compute; reflexivity|]. split; vm_compute; reflexivity. Qed.

(** remote_node_test.py:19-44 *)
Example test_remote_node_parse : accepted (@remote_parse pyset_nodup
  (fst (add_property (PAProp (mkprop 0xD6 ([1] ++ from_int_n 0x0EF001 3))) new_msg)) (fst (@new_remote pyset_nodup None))) = true.
Proof. vm_compute. reflexivity. Qed.
Example test_remote_node_parse_bytes : exists m n, parse_bytes new_msg (rt_hex "108100010EF0010EF0017201D607020F2001029101") = (m, Ok true) /\
  @remote_parse pyset_nodup m (fst (@new_remote pyset_nodup None)) = (n, Ok true) /\
  has_object 0x0EF001 n = true /\ has_object 0x0F2001 n = true /\ has_object 0x029101 n = true.
Proof. do 2 eexists. split; [vm_compute; reflexivity|]. split; [vm_compute; reflexivity|]. repeat split; vm_compute; reflexivity. Qed.

(** transport/manager_test.py:18-22, transport/interface_test.py:18-20 *)
Example test_manager : exists g tr, mgr_start good_os [] new_manager [] = (g, tr, Ok true) /\ snd (mgr_stop tr g) = true.
Proof. do 2 eexists. split; vm_compute; reflexivity. Qed.

(** controller_test.py:19-44 *)
Definition rt_ctl : lnode := fst (@new_controller pyset_nodup rt_rnd).
Example test_controller : exists s tr s' tr', ctl_start good_os [] rt_ctl = (s, tr, Ok true) /\
  ctl_search good_os tr s = (s', tr', Ok true) /\ snd (local_stop tr' s') = true.
Proof. do 4 eexists. split; [vm_compute; reflexivity|]. split; vm_compute; reflexivity. Qed.
(** No assert: the call does not raise.  The address is set before parsing, which keeps it. *)
Example test_controllermessage_received : forall s, In s rt_msgs -> exists m,
  parse_hexstring (set_from (Some ("127.0.0.1"%string, 80)) new_msg) s = (m, Ok true) /\
  snd (@node_received pyset_nodup good_os [] rt_ctl m) = Ok tt.
Proof. intros s [<-|[<-|[]]]; (eexists; split; [vm_compute; reflexivity|vm_compute; reflexivity]). Qed.
(** gethostbyname knows localhost and accepts addresses. *)
Definition rt_os : os := mkos (fun _ => []) (fun _ _ _ => Ok tt) (fun _ _ b _ => Ok (zlen b))
  (fun _ s => if String.eqb s "localhost" then Ok "127.0.0.1"%string else Ok s) (fun _ _ => Ok tt).
Example test_controller_nodes : exists n c tr, @new_remote pyset_nodup (Some ("127.0.0.1"%string, 80)) = (n, Ok tt) /\
  add_found_node rt_os [] new_ctl n = (c, tr, Ok true) /\
  let found a := match get_node rt_os tr c a with Ok (Some _) => true | _ => false end in
  found (GAStr "127.0.0.1") = true /\ found (GATup "127.0.0.1") = true /\ found (GAStr "localhost") = true.
Proof. do 3 eexists. split; [vm_compute; reflexivity|]. split; [vm_compute; reflexivity|]. repeat split; vm_compute; reflexivity. Qed.

(** ** device_test.py:21-160: a Controller that hosts a device and finds itself *)
(** MonoLight of the test, device_test.py:23-46; super() is super_object.py:99-109. *)
Definition rt_read (_ : nat) (ps : props) (p : option oprop) : props * res bool :=
  match p with
  | None => (ps, Err AttributeError)
  | Some p => match zget (op_code p) ps with None => (ps, Err AttributeError) | Some q => (ps, Ok (is_read_enabled q)) end
  end.
Definition rt_write (_ : nat) (ps : props) (p : oprop) (data : list Z) : props * res bool :=
  let super := (ps, Ok (match zget (op_code p) ps with None => false | Some q => is_write_enabled q end)) in
  if op_code p =? 0x80 then
    if negb (zlen (op_data p) =? 1) then (ps, Ok false)
    else match data with
         | [] => (ps, Err IndexError)
         | x :: _ => if negb (x =? 0x30) && negb (x =? 0x31) then (ps, Ok false) else super
         end
  else super.
Definition rt_light : obj := set_o_handler (HUser (mkuhandler rt_read rt_write)) (fst (@new_standard pyset_nodup (PInt 0x029101))).
(** create_test_device, device_test.py:49-63 *)
Example test_create_device : has_property 0x80 rt_light = true /\ has_property 0x8A rt_light = true /\ has_property 0xB0 rt_light = true /\
  exists o, set_property_data 0x80 (from_int_n 0x31 1) rt_light = (o, true) /\ get_property_data 0x80 o = Some [0x31].
Proof. repeat split; try (vm_compute; reflexivity). eexists. split; vm_compute; reflexivity. Qed.
Definition rt_dev : obj := fst (set_property_data 0x80 [0x31] rt_light).

(** One interface; datagrams sent to its address or to the multicast group come back to the
    unicast or multicast server, in the order of sending, until nothing more is sent. *)
Definition rt_one : os := mkos (fun _ => [Some [Some "10.0.0.1"%string]]) (fun _ _ _ => Ok tt) (fun _ _ b _ => Ok (zlen b)) (fun _ s => Ok s) (fun _ _ => Ok tt).
Definition rt_me : addr := ("10.0.0.1"%string, PORT).
Definition rt_index (s : lnode) (uni : bool) : nat :=
  match g_servers (ln_mgr s) with v :: _ => if Bool.eqb (s_uni v) uni then 0 else 1 | [] => 0 end%nat.
Definition rt_echo (s : lnode) (evs : trace) : list (nat * datagram) :=
  flat_map (fun e => match e with
    | EvSend _ b a (Ok _) => if addr_eqb a rt_me then [(rt_index s true, (b, rt_me))]
                           else if addr_eqb a MULTICAST then [(rt_index s false, (b, rt_me))] else []
    | _ => [] end) evs.
Fixpoint rt_loop (k : nat) (n : nat) (s : lnode) (tr : trace) : lnode * trace :=
  match k with
  | O => (s, tr)
  | S k => let '(s', tr') := @run pyset_nodup rt_one tr s (rt_echo s (skipn n tr)) in rt_loop k (length tr) s' tr'
  end.
(** ctrl.post_message(m, node): the request goes out, all datagrams are delivered. *)
Definition rt_post (m : msg) (d : dest) (x : lnode * trace) : lnode * trace * option msg :=
  let '(s, tr, _, _) := post_begin rt_one (snd x) (fst x) m d in
  let '(s', tr') := rt_loop 4 (length (snd x)) s tr in (s', tr', post_end s').
Definition rt_send (m : msg) (d : dest) (x : lnode * trace) : lnode * trace * bool :=
  let '(s, tr, _, r) := ctl_send rt_one (snd x) (fst x) m d in
  let '(s', tr') := rt_loop 4 (length (snd x)) s tr in (s', tr', match r with Ok true => true | _ => false end).
(** test_device, device_test.py:66-101: up to the found node. *)
Definition rt_node : lnode := fst (@local_add_object pyset_nodup (Some rt_dev) (fst (set_enabled IGNORE_SELF_MESSAGE false rt_ctl))).
Definition rt_started : lnode * trace :=
  let '(s, tr, _) := ctl_start rt_one [] rt_node in rt_loop 4 0 s tr.
Definition rt_found (s : lnode) : list node := match ln_ctl s with Some c => ctl_nodes c | None => [] end.
Definition rt_remote : dest := match rt_found (fst rt_started) with n :: _ => DNode n | [] => DOther end.
Definition rt_data (x : option msg) : option (Z * list prop * list prop * list prop) :=
  option_map (fun m => (m_ESV m, m_props m, m_sets m, m_gets m)) x.
Definition rt_c (esv : Z) (l : list prop_arg) : msg := fold_left (fun m a => fst (add_property a m)) l (request_message esv 0x029101).
(** The exchanges of the test, device_test.py:80-160. *)
Definition rt_session : list (option (Z * list prop * list prop * list prop)) * bool * bool :=
  let x0 := rt_started in
  let '(s1, t1, r1) := rt_post (fst (add_property (PAInt 0x83) (request_message READ_REQUEST NODE_PROFILE_CODE))) rt_remote x0 in
  let '(s2, t2, r2) := rt_post (rt_c READ_REQUEST [PAInt 0x80]) rt_remote (s1, t1) in
  let '(s3, t3, b3) := rt_send (rt_c WRITE_REQUEST [PATuple2 0x80 [0x30]]) rt_remote (s2, t2) in
  let '(s4, t4, r4) := rt_post (rt_c READ_REQUEST [PAInt 0x80]) rt_remote (s3, t3) in
  let '(s5, t5, r5) := rt_post (rt_c WRITE_REQUEST_RESPONSE_REQUIRED [PATuple2 0x80 [0x31]]) rt_remote (s4, t4) in
  let '(s6, t6, r6) := rt_post (fst (add_get_property (PAInt 0x80) (fst (add_set_property (PATuple2 0x80 [0x30]) (rt_c WRITE_READ_REQUEST []))))) rt_remote (s5, t5) in
  (map rt_data [r1; r2; r4; r5; r6], b3, snd (local_stop t6 s6)).
Example test_device : map n_addr (rt_found (fst rt_started)) = [ln_addr (fst rt_started)] /\ (rt_session =
  ([Some (READ_RESPONSE, [mkprop 0x83 ([0xFE; 0; 0; 0] ++ rnd_id rt_rnd)], [], []);
    Some (READ_RESPONSE, [mkprop 0x80 [0x31]], [], []);
    Some (READ_RESPONSE, [mkprop 0x80 [0x30]], [], []);
    Some (WRITE_RESPONSE, [mkprop 0x80 []], [], []);
    Some (WRITE_READ_RESPONSE, [], [mkprop 0x80 []], [mkprop 0x80 [0x30]])], true, true)).
Proof. split; vm_compute; reflexivity. Qed.
