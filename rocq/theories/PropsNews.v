(** Property C124: values that a device announces. *)
From Verif Require Import PyBase MsgM PropM ObjM DbM NodeM LocalM CtrlM
  SpecWire SpecReq SpecNode SpecLocal SpecSrv SpecCtrl SpecEnd SpecDisc SpecNews MapP NodeP AnswerP EndP NewsP.
From Verif Require Import SpecReq.

(** C124: what is sent; a controller that has found the device records the values, but on the node profile of the
    device whatever object they come from; nodes without a controller are left alone; no object of a device ever
    changes; and the servers of controllers that the announcement ends. *)
Theorem C124_sent : forall w tr s code deoj ps s' tr' m' r, ln_ctl s = None -> 0 <= g_tid (ln_mgr s) <= 65535 -> news_ok code deoj ps ->
  local_announce w tr s (news code deoj ps) = (s', tr', m', r) ->
  (forall b, In b (reach ("224.0.23.0"%string, 3610) (since tr tr')) -> b = wire (as_sent s code deoj ps)) /\
  (reliable w -> length (reach ("224.0.23.0"%string, 3610) (since tr tr')) = length (open_ifs s)) /\ ln_objs s' = ln_objs s.
Proof. exact L_C124_sent. Qed.
Print Assumptions C124_sent.
Theorem C124_known_partial : forall (PS : PySet) w tr s code ps s' tr' m' r a sites sched k d c nd o,
  ln_ctl s = None -> 0 <= g_tid (ln_mgr s) <= 65535 -> news_ok code 0x0EF001 ps -> unlisted ps ->
  local_announce w tr s (news code 0x0EF001 ps) = (s', tr', m', r) ->
  nth_error sites k = Some d -> watches d c -> sget (fst a) (c_found c) = Some nd -> get_object (PInt 0x0EF001) nd = Some o ->
  let mail := reach ("224.0.23.0"%string, 3610) (since tr tr') in
  exists d' c' nd' o', nth_error (net_run a mail sched sites) k = Some d' /\ watches d' c' /\
  dkeys (c_found c') = dkeys (c_found c) /\ (forall ip, ip <> fst a -> sget ip (c_found c') = sget ip (c_found c)) /\
  sget (fst a) (c_found c') = Some nd' /\ n_addr nd' = n_addr nd /\ (forall i, i <> 0x0EF001 -> get_object (PInt i) nd' = get_object (PInt i) nd) /\
  get_object (PInt 0x0EF001) nd' = Some o' /\
  ((0 < brought (length mail) (servers_of (t_node d)) k sched)%nat -> records ps o o') /\ (brought (length mail) (servers_of (t_node d)) k sched = 0%nat -> o' = o).
Proof. exact L_C124_known_partial. Qed.
Print Assumptions C124_known_partial.
Theorem C124_devices : forall (PS : PySet) w tr s code deoj ps s' tr' m' r a sites sched k d,
  ln_ctl s = None -> 0 <= g_tid (ln_mgr s) <= 65535 -> news_ok code deoj ps ->
  local_announce w tr s (news code deoj ps) = (s', tr', m', r) ->
  nth_error sites k = Some d -> quiet (t_os d) -> listens (t_node d) -> ln_ctl (t_node d) = None ->
  exists evs, nth_error (net_run a (reach ("224.0.23.0"%string, 3610) (since tr tr')) sched sites) k = Some (mksite (t_os d) (t_addr d) (t_node d) (t_tr d ++ evs) (t_from d)) /\
  sent evs = [].
Proof. exact L_C124_devices. Qed.
Print Assumptions C124_devices.
Theorem C124_objects_refuted : forall (PS : PySet) w tr s code deoj ps s' tr' m' r a sites sched k d c,
  ln_ctl s = None -> 0 <= g_tid (ln_mgr s) <= 65535 -> news_ok code deoj ps -> deoj <> 0x0EF001 \/ unlisted ps ->
  local_announce w tr s (news code deoj ps) = (s', tr', m', r) ->
  nth_error sites k = Some d -> watches d c ->
  exists d' c', nth_error (net_run a (reach ("224.0.23.0"%string, 3610) (since tr tr')) sched sites) k = Some d' /\ ln_ctl (t_node d') = Some c' /\
  dkeys (c_found c') = dkeys (c_found c) /\
  forall ip n, sget ip (c_found c) = Some n -> exists n', sget ip (c_found c') = Some n' /\ forall i, i <> 0x0EF001 -> get_object (PInt i) n' = get_object (PInt i) n.
Proof. exact L_C124_objects_refuted. Qed.
Print Assumptions C124_objects_refuted.
Theorem C124_ends_refuted : forall (PS : PySet) w tr s code deoj ps s' tr' m' r a sites sched k d c j i,
  ln_ctl s = None -> 0 <= g_tid (ln_mgr s) <= 65535 -> news_ok code deoj ps ->
  deoj <> 0x0EF001 \/ (unlisted ps /\ sget (fst a) (c_found c) = None) ->
  local_announce w tr s (news code deoj ps) = (s', tr', m', r) ->
  nth_error sites k = Some d -> watches d c -> (j < servers_of (t_node d))%nat ->
  In (k, j, i) sched -> (i < length (reach ("224.0.23.0"%string, 3610%Z) (since tr tr')))%nat ->
  exists d' v, nth_error (net_run a (reach ("224.0.23.0"%string, 3610) (since tr tr')) sched sites) k = Some d' /\
  server_at (t_node d') j = Some v /\ s_alive v = false.
Proof. exact L_C124_ends_refuted. Qed.
Print Assumptions C124_ends_refuted.
(** A lamp says that it is on.  The first controller has found its device, the second has not, the third site is a device. *)
Definition nw_node : node := mknode (Some dev_addr) [(0x0EF001, mkobj 0x0EF001 "" [(0x80, mkoprop 0x80 [0x30] 1 0 1)] HNone 0 [] CObject); (0x029101, shelf)].
Definition nw_ctl (l : list (string * node)) : lnode :=
  fst (fst (local_start good_os [] (mkln (mknode None []) InTable 1 new_manager (Some (mkctl l None None []))) [])).
Definition nw_sites : list site := [mksite good_os ("10.0.0.8"%string, 3610) (nw_ctl [("10.0.0.9"%string, nw_node)]) [] 0;
  mksite good_os ("10.0.0.10"%string, 3610) (nw_ctl []) [] 0; mksite good_os ("10.0.0.11"%string, 3610) shelf_node [] 0].
Definition nw_sched : list (nat * nat * nat) := [(0, 2, 0); (1, 3, 1); (2, 2, 0); (0, 3, 1); (0, 9, 1); (5, 0, 0)]%nat.
Definition nw_ps : list prop := [mkprop 0x80 [0x31]].
Ltac servers := split; [vm_compute; discriminate|]; intros j v;
  do 4 (destruct j as [|j]; [vm_compute; intros E; assert (X := f_equal (fun o => match o with Some v => v | None => mksrv true ""%string true true [] end) E); cbn in X; subst v; split; reflexivity|]);
  destruct j; vm_compute; discriminate.
Example C124_ex : ln_ctl shelf_node = None /\ 0 <= g_tid (ln_mgr shelf_node) <= 65535 /\ news_ok 0x029101 0x0EF001 nw_ps /\ unlisted nw_ps /\
  exists d0 d1 d2 c0 c1, nw_sites = [d0; d1; d2] /\ watches d0 c0 /\ sget (fst dev_addr) (c_found c0) = Some nw_node /\ get_object (PInt 0x0EF001) nw_node <> None /\
  watches d1 c1 /\ sget (fst dev_addr) (c_found c1) = None /\ quiet (t_os d2) /\ listens (t_node d2) /\ ln_ctl (t_node d2) = None.
Proof.
  split; [reflexivity|]. split; [vm_compute; split; discriminate|].
  split; [split; [lia|split; [lia|split; [split; [cbn; lia|repeat constructor; unfold byte_ok; cbn; lia]|split; [repeat constructor; unfold byte_ok; cbn; lia|vm_compute; lia]]]]|].
  split; [split; discriminate|]. do 5 eexists. split; [reflexivity|].
  split; [split; [exact good_quiet|split; [servers|vm_compute; reflexivity]]|]. split; [reflexivity|]. split; [vm_compute; discriminate|].
  split; [split; [exact good_quiet|split; [servers|vm_compute; reflexivity]]|]. split; [reflexivity|].
  split; [exact good_quiet|]. split; [servers|vm_compute; reflexivity].
Qed.
(** The announced status of the lamp becomes that of the node profile. *)
Definition nw_status (code : Z) (d : site) : option (list Z) :=
  match ln_ctl (t_node d) with
  | Some c => match sget "10.0.0.9"%string (c_found c) with
              | Some n => match get_object (PInt code) n with Some o => option_map op_data (get_property 0x80 o) | None => None end
              | None => None
              end
  | None => None
  end.
Example C124_run_ex : let '(_, tr, _, r) := local_announce good_os [] shelf_node (news 0x029101 0x0EF001 nw_ps) in
  let mail := reach ("224.0.23.0"%string, 3610) (since [] tr) in
  let sites := @net_run pyset_nodup dev_addr mail nw_sched nw_sites in
  r = Ok true /\ mail = repeat [0x10; 0x81; 0; 1; 2; 0x91; 1; 0x0E; 0xF0; 1; 0x73; 1; 0x80; 1; 0x31] 2 /\
  map (nw_status 0x0EF001) sites = [Some [0x31]; None; None] /\ map (nw_status 0x029101) sites = [Some [0x30]; None; None] /\
  map (fun d => map s_alive (g_servers (ln_mgr (t_node d)))) sites = [[true; true; true; true]; [true; true; true; false]; [true; true; true; true]].
Proof. vm_compute. repeat split. Qed.
(** The same sent to the object itself: both controllers lose the server that hears it. *)
Example C124_deoj_ex : let '(_, tr, _, r) := local_announce good_os [] shelf_node (news 0x029101 0x029101 nw_ps) in
  let sites := @net_run pyset_nodup dev_addr (reach ("224.0.23.0"%string, 3610) (since [] tr)) nw_sched nw_sites in
  map (nw_status 0x0EF001) sites = [Some [0x30]; None; None] /\
  map (fun d => map s_alive (g_servers (ln_mgr (t_node d)))) sites = [[true; true; false; false]; [true; true; true; false]; [true; true; true; true]].
Proof. vm_compute. repeat split. Qed.
