(** Properties C29, C34-C36, C38, C42, C44 and C60: the object table, options, the node profile,
    transaction identifiers, observers, servers. *)
From Verif Require Import PyBase BytesM MsgM PropM ObjM DbData DbM NodeM LocalM CtrlM
  SpecWire SpecObj SpecNode SpecProf MapP NodeP ProfP.
From Coq Require Import Permutation.

(** C29: the object table of a node. *)
Theorem C29_object_table : forall a ops, let n := add_run ops (new_node a) in
  (forall c, get_object (PInt c) n = last_obj c ops) /\
  (forall c, has_object c n = isSome (last_obj c ops)) /\
  (forall g c i, byte_ok g -> byte_ok c -> byte_ok i ->
     get_object (PTup [g; c; i]) n = get_object (PInt (compose g c i)) n) /\
  map o_code (node_objects n) = firsts Z.eqb (added_codes ops) /\
  (forall o, In o (node_objects n) <-> last_obj (o_code o) ops = Some o).
Proof. exact L_C29_object_table. Qed.
Print Assumptions C29_object_table.
Theorem C29_results : forall o n, snd (node_add_object o n) = isSome o.
Proof. exact L_C29_results. Qed.
Print Assumptions C29_results.
Definition dev (c : Z) : obj := new_object (PInt c).
Example C29_ex :
  let n := add_run [Some (dev 0x029101); None; Some (dev 0x013001); Some (set_o_handler HSuper (dev 0x029101))] (new_node None) in
  map o_code (node_objects n) = [0x029101; 0x013001] /\ has_object 0x013001 n = true /\
  get_object (PTup [2; 0x91; 1]) n = Some (set_o_handler HSuper (dev 0x029101)) /\ get_object (PInt 0x029102) n = None.
Proof. repeat split. Qed.

(** C34: node options are a bit set. *)
Theorem C34_options : forall s opt,
  (opt <> 0 -> is_enabled opt (fst (set_enabled opt true s)) = true) /\
  is_enabled opt (fst (set_enabled opt false s)) = false /\
  (forall opt' v, Z.land opt opt' = 0 -> is_enabled opt' (fst (set_enabled opt v s)) = is_enabled opt' s) /\
  (forall v, snd (set_enabled opt v s) = true) /\
  (forall v, fst (set_enabled opt v s) = set_ln_opts (ln_opts (fst (set_enabled opt v s))) s).
Proof. exact L_C34_options. Qed.
Print Assumptions C34_options.
Theorem C34_initial : forall (PS : PySet) controller r s, new_local controller r = (s, Ok tt) ->
  is_enabled IGNORE_SELF_MESSAGE s = true.
Proof. exact L_C34_initial. Qed.
Print Assumptions C34_initial.

(** A node made with some random bytes, for the examples below. *)
Definition ex_node : lnode := fst (@new_local pyset_nodup false (mkrnd [1;2;3;4;5;6;7;8;9;10;11;12;13] 14 15)).
Example C34_ex : snd (@new_local pyset_nodup false (mkrnd [1;2;3;4;5;6;7;8;9;10;11;12;13] 14 15)) = Ok tt /\
  is_enabled 1 ex_node = true /\ is_enabled 2 ex_node = false /\
  is_enabled 1 (fst (set_enabled 2 true ex_node)) = true /\ is_enabled 2 (fst (set_enabled 2 true ex_node)) = true.
Proof. vm_compute. repeat split. Qed.

(** C35: finding.  Proved for up to 255 devices as long as no object with the profile's own code
    is added; with 256 devices the count byte wraps to 0, and an added object with code 0x0EF001
    replaces the profile while the node keeps updating the old one. *)
Theorem C35_instance_list_partial : forall (PS : PySet) c r s0 ops, new_local c r = (s0, Ok tt) -> no_profile ops ->
  let s := fst (local_adds ops s0) in
  let l := device_codes (node_codes s) in
  l = device_codes (firsts Z.eqb (added_codes ops)) /\
  (zlen l <= 255 -> profile_data 0xD5 s = Some (zlen l :: flat_map (be 3) l) /\
                    profile_data 0xD6 s = Some (zlen l :: flat_map (be 3) l)) /\
  profile_data 0xD3 s = Some (be 3 (zlen l)).
Proof. exact L_C35_instance_list_partial. Qed.
Print Assumptions C35_instance_list_partial.
Theorem C35_instance_list_refuted : forall (PS : PySet) c r s0, new_local c r = (s0, Ok tt) ->
  exists ops, no_profile ops /\
  let s := fst (local_adds ops s0) in let l := device_codes (node_codes s) in
  zlen l = 256 /\ exists d, profile_data 0xD5 s = Some (0 :: d) /\ profile_data 0xD6 s = Some (0 :: d) /\ zlen d = 3 * 256.
Proof. exact L_C35_instance_list_refuted. Qed.
Print Assumptions C35_instance_list_refuted.
Theorem C35_profile_replaced_refuted : forall (PS : PySet) c r s0, new_local c r = (s0, Ok tt) ->
  exists ops, let s := fst (local_adds ops s0) in
    zlen (device_codes (node_codes s)) = 1 /\ profile_data 0xD5 s = None /\
    Forall (fun x => exists b, x = Ok b) (snd (local_adds ops s0)).
Proof. exact L_C35_profile_replaced_refuted. Qed.
Print Assumptions C35_profile_replaced_refuted.
Definition ex_ops := [Some (dev 0x029101); Some (dev 0x029102); None; Some (dev 0x013001)].
Example C35_ex : no_profile ex_ops /\ let s := fst (@local_adds pyset_nodup ex_ops ex_node) in
  profile_data 0xD5 s = Some [3; 2; 0x91; 1; 2; 0x91; 2; 1; 0x30; 1] /\ profile_data 0xD3 s = Some [0; 0; 3].
Proof.
  split; [intros o [[= <-]|[[= <-]|[|[[= <-]|[]]]]]; vm_compute; congruence|]. vm_compute. repeat split.
Qed.

(** C36: finding.  The class list itself is right, but the count written before it (D7) and in
    D4 is the number of objects, not of classes. *)
Theorem C36_class_list_partial : forall (PS : PySet) c r s0 ops, new_local c r = (s0, Ok tt) -> no_profile ops ->
  let s := fst (local_adds ops s0) in
  let l := device_codes (node_codes s) in
  (exists n, profile_data 0xD7 s = Some (n :: class_bytes (classes l))) /\
  (NoDup (map class_pair (node_codes s)) -> 
     profile_data 0xD4 s = Some (be 2 (zlen (classes (node_codes s))))).
Proof. exact L_C36_class_list_partial. Qed.
Print Assumptions C36_class_list_partial.
Theorem C36_class_list_refuted : forall (PS : PySet) c r s0 ops, new_local c r = (s0, Ok tt) -> no_profile ops ->
  let s := fst (local_adds ops s0) in
  let l := device_codes (node_codes s) in
  zlen (node_codes s) <= 255 ->
  exists n d, profile_data 0xD7 s = Some (n :: d) /\ n = zlen (node_codes s) /\ zlen (classes l) < n.
Proof. exact L_C36_class_list_refuted. Qed.
Print Assumptions C36_class_list_refuted.
Theorem C36_class_count_refuted : forall (PS : PySet) c r s0, new_local c r = (s0, Ok tt) ->
  exists ops, no_profile ops /\ (let s := fst (local_adds ops s0) in
  zlen (classes (node_codes s)) = 2 /\ profile_data 0xD4 s = Some [0; 3]).
Proof. exact L_C36_class_count_refuted. Qed.
Print Assumptions C36_class_count_refuted.
Example C36_ex : let s := fst (@local_adds pyset_nodup ex_ops ex_node) in
  profile_data 0xD7 s = Some [4; 2; 0x91; 1; 0x30] /\ classes (device_codes (node_codes s)) = [(2, 0x91); (1, 0x30)].
Proof. vm_compute. repeat split. Qed.

(** C38: transaction identifiers, for messages sent one after the other (interleavings: C39). *)
Theorem C38_tids : forall w tr g ops g' tr' tids, 0 <= g_tid g <= 65535 ->
  sop_run w tr g ops = (g', tr', tids) ->
  0 <= g_tid g' <= 65535 /\ length tids = length ops /\
  (forall t, In t (assigned ops tids) -> 1 <= t <= 65535) /\
  (forall i j t u, (i < j)%nat -> Z.of_nat j - Z.of_nat i < 65535 ->
     nth_error (assigned ops tids) i = Some t -> nth_error (assigned ops tids) j = Some u -> t <> u) /\
  (forall k op t, nth_error ops k = Some op -> nth_error tids k = Some t -> m_TID (sop_msg op) <> 0 ->
     t = m_TID (sop_msg op)).
Proof. exact L_C38_tids. Qed.
Print Assumptions C38_tids.
Theorem C38_nonzero_unconsumed : forall w tr g op g' tr' m, m_TID (sop_msg op) <> 0 ->
  sop_step w tr g op = (g', tr', m) -> g' = g /\ m_TID m = m_TID (sop_msg op).
Proof. exact L_C38_nonzero_unconsumed. Qed.
Print Assumptions C38_nonzero_unconsumed.
Theorem C38_initial : forall (PS : PySet) c r s, new_local c r = (s, Ok tt) -> g_tid (ln_mgr s) = 0.
Proof. exact L_C38_initial. Qed.
Print Assumptions C38_initial.
Example C38_ex : let m := new_msg in
  snd (sop_run good_os [] (mkmgr 65534 []) [SSend m (Some ("10.0.0.1"%string, 3610)); SAnnounce (set_TID 9 m); SAnnounce m; SAnnounce m])
  = [65535; 9; 1; 2].
Proof. reflexivity. Qed.

(** C42: finding.  The refusal of None tests the builtin [object] instead of the argument, so
    None is registered and makes every later notification raise. *)
Theorem C42_observers_partial : forall (PS : PySet) w tr s m ns, quiet w ->
  let l := register (map OUser ns) in
  NoDup l /\ (forall o, In o l <-> In o (map OUser ns)) /\ l = map OUser (firsts Nat.eqb ns) /\
  (forall o acc, snd (subj_add o acc) = true) /\
  notify w tr s l m = (s, tr ++ map (fun n => EvObs n m) (firsts Nat.eqb ns), Ok tt).
Proof. exact L_C42_observers_partial. Qed.
Print Assumptions C42_observers_partial.
Theorem C42_none_refuted : exists l, subj_add ONone l = (l ++ [ONone], true) /\
  forall (PS : PySet) w tr s m, snd (notify w tr s (fst (subj_add ONone l)) m) = Err AttributeError.
Proof. exact L_C42_none_refuted. Qed.
Print Assumptions C42_none_refuted.
Example C42_ex : quiet good_os /\ register (map OUser [3; 1; 3; 2; 1]%nat) = [OUser 3; OUser 1; OUser 2].
Proof. split; [intros tr ev; reflexivity|reflexivity]. Qed.

(** C44: finding.  A socket error raised by bind leaves the servers started before it running. *)
Theorem C44_start : forall w tr s l s' tr', local_start w tr s l = (s', tr', Ok true) ->
  let ifs := non_loopback (reported (os_netif w (snd (fst (local_stop tr s))))) in
  ifs <> [] /\ running [ONode] ifs (g_servers (ln_mgr s')) /\
  exists i rest, ifs = i :: rest /\ ln_addr s' = Some (i, 3610).
Proof. exact L_C44_start. Qed.
Print Assumptions C44_start.
Theorem C44_stop : forall w ops s0 s tr s' tr' b,
  g_servers (ln_mgr s0) = [] -> life_run w ops (s0, []) = (s, tr) -> local_stop tr s = (s', tr', b) ->
  b = true /\ g_servers (ln_mgr s') = [] /\ Permutation (opened tr') (closed tr') /\
  local_stop tr' s' = (s', tr', true).
Proof. exact L_C44_stop. Qed.
Print Assumptions C44_stop.
Theorem C44_failed_start_partial : forall w tr s l s' tr', local_start w tr s l = (s', tr', Ok false) ->
  g_servers (ln_mgr s') = [].
Proof. exact L_C44_failed_start_partial. Qed.
Print Assumptions C44_failed_start_partial.
Theorem C44_failed_start_refuted : exists w s s' tr' e,
  g_servers (ln_mgr s) = [] /\ local_start w [] s [] = (s', tr', Err e) /\
  (exists v, In v (g_servers (ln_mgr s')) /\ s_open v = true /\ s_alive v = true) /\
  ~ Permutation (opened tr') (closed tr').
Proof. exact L_C44_failed_start_refuted. Qed.
Print Assumptions C44_failed_start_refuted.
Example C44_ex : let '(s1, tr1, r1) := local_start good_os [] ex_node [] in
  r1 = Ok true /\ length (g_servers (ln_mgr s1)) = (2 * length (non_loopback (reported (os_netif good_os []))))%nat /\
  let '(s2, tr2, r2) := local_stop tr1 s1 in r2 = true /\ g_servers (ln_mgr s2) = [] /\ opened tr2 = closed tr2.
Proof. vm_compute. repeat split. Qed.

(** C60: finding.  LocalNode.start ignores its argument (Manager.start honours it). *)
Theorem C60_all_interfaces : forall w tr s s' tr', local_start w tr s [] = (s', tr', Ok true) ->
  running [ONode] (non_loopback (reported (os_netif w (snd (fst (local_stop tr s)))))) (g_servers (ln_mgr s')).
Proof. exact L_C60_all_interfaces. Qed.
Print Assumptions C60_all_interfaces.
Theorem C60_requested_partial : forall w tr g l g' tr', l <> [] ->
  mgr_start w tr g l = (g', tr', Ok true) -> running [] l (g_servers g').
Proof. exact L_C60_requested_partial. Qed.
Print Assumptions C60_requested_partial.
Theorem C60_requested_refuted : exists w s l s' tr', l <> [] /\
  local_start w [] s l = (s', tr', Ok true) /\
  ~ running [ONode] l (g_servers (ln_mgr s')) /\
  exists v, In v (g_servers (ln_mgr s')) /\ ~ In (s_if v) l.
Proof. exact L_C60_requested_refuted. Qed.
Print Assumptions C60_requested_refuted.
Example C60_ex : non_loopback (reported [Some [Some "127.0.0.1"; None]; None; Some [Some "10.0.0.2"; Some "10.0.0.3"]]%string)
  = ["10.0.0.2"; "10.0.0.3"]%string /\
  snd (mgr_start good_os [] new_manager ["10.0.0.9"%string]) = Ok true.
Proof. vm_compute. repeat split. Qed.
