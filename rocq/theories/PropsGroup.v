(** Property C113: requests to all nodes of a network. *)
From Verif Require Import PyBase MsgM PropM ObjM NodeM LocalM CtrlM
  SpecWire SpecReq SpecNode SpecLocal SpecSrv SpecCtrl SpecEnd SpecSess SpecDisc SpecGroup MapP NodeP AnswerP EndP GroupP.
From Verif Require Import SpecReq.

(** C113: what is sent, what the devices hold and answer afterwards, and a request that ends servers. *)
Theorem C113_sent : forall w tr s c code k s' tr' m' r,
  ln_ctl s = Some c -> 0 <= g_tid (ln_mgr s) <= 65535 -> encodable (request code k) ->
  local_announce w tr s (request code k) = (s', tr', m', r) ->
  let m := request code k in
  (forall b, In b (reach ("224.0.23.0"%string, 3610) (since tr tr')) ->
     b = wire (mkmsg (g_tid (ln_mgr s) mod 65535 + 1) 0x0EF001 code (m_ESV m) (m_props m) (m_sets m) (m_gets m) None None)) /\
  (reliable w -> length (reach ("224.0.23.0"%string, 3610) (since tr tr')) = length (open_ifs s)).
Proof. exact L_C113_sent. Qed.
Print Assumptions C113_sent.
Theorem C113_group_partial : forall (PS : PySet) wc ac sc c trc code k sc1 trc1 m1 rc devs Ss sched,
  ln_ctl sc = Some c -> 0 <= g_tid (ln_mgr sc) <= 65535 -> encodable (request code k) ->
  (* a controller sends a request to all nodes *)
  local_announce wc trc sc (request code k) = (sc1, trc1, m1, rc) ->
  (* on a network of devices with the contents [Ss] *)
  Forall2 (fun d S => serves d S /\ call_ok S code k) devs Ss ->
  let mail := reach ("224.0.23.0"%string, 3610) (since trc trc1) in
  (* then, whatever the network delivers *)
  let x := area_run sched (mkarea (mksite wc ac sc1 trc1 (length trc1)) mail devs) in
  forall i d0 S, nth_error devs i = Some d0 -> nth_error Ss i = Some S ->
  let n := searches (length mail) (servers_of (t_node d0)) i sched in
  exists d, nth_error (a_devs x) i = Some d /\ listens (t_node d) /\
  (* each device holds what the request leaves if it has heard it, however often *)
  mirrors (t_node d) (heard_store n S code k) /\
  (* and has sent nothing but its answer to the controller, once for each time it has heard it *)
  outbox d = map (fun b => (b, ac)) (concat (repeat (answer_bytes (next_tid sc) S code k) n)) /\
  mailed ac d = concat (repeat (answer_bytes (next_tid sc) S code k) n).
Proof. exact L_C113_group_partial. Qed.
Print Assumptions C113_group_partial.
Theorem C113_goes_on_refuted : exists wc ac sc c code k devs Ss sched,
  ln_ctl sc = Some c /\ 0 <= g_tid (ln_mgr sc) <= 65535 /\ encodable (request code k) /\ Forall2 serves devs Ss /\
  forall PS : PySet, exists sc1 trc1 m1 d0 d v,
  local_announce wc [] sc (request code k) = (sc1, trc1, m1, Ok true) /\
  let mail := reach ("224.0.23.0"%string, 3610) (since [] trc1) in
  let x := area_run sched (mkarea (mksite wc ac sc1 trc1 (length trc1)) mail devs) in
  nth_error devs 0 = Some d0 /\ nth_error (a_devs x) 0 = Some d /\
  searches (length mail) (servers_of (t_node d0)) 0 sched = 1%nat /\
  outbox d = [] /\ server_at (t_node d) 2 = Some v /\ s_alive v = false.
Proof. exact L_C113_goes_on_refuted. Qed.
Print Assumptions C113_goes_on_refuted.
(** Two devices with a lamp and one without; the first hears the request twice, the second not at all. *)
Definition gr_empty : lnode := fst (fst (local_start good_os [] (mkln (mknode None []) InTable 1 new_manager None) [])).
Definition gr_devs : list site := [mksite good_os ("10.0.0.9"%string, 3610) shelf_node [] 0; mksite good_os ("10.0.0.10"%string, 3610) shelf_node [] 0; mksite good_os ("10.0.0.11"%string, 3610) gr_empty [] 0].
Definition gr_stores : list store := [gx_store; gx_store; fun _ => None].
Definition gr_call : call := KWrite [mkprop 0x80 [0x31]].
Definition gr_sched : list move := [GoSearch 0 2 0; GoSearch 2 3 1; GoAnswer 0 2 0; GoSearch 0 3 1; GoSearch 1 9 0].
Example C113_ex : Forall2 (fun d S => serves d S /\ call_ok S 0x029101 gr_call) gr_devs gr_stores /\ encodable (request 0x029101 gr_call).
Proof.
  assert (En : encodable (request 0x029101 gr_call)) by (split; [unfold byte_ok; cbn; lia|split; [cbn; lia|repeat constructor; unfold byte_ok; cbn; lia]]).
  assert (C : call_ok gx_store 0x029101 gr_call).
  { split; [lia|]. split; [exact En|]. split; [repeat constructor; unfold byte_ok; cbn; lia|]. split; [constructor|]. split; [vm_compute; lia|]. cbn. split; [split; [vm_compute; lia|discriminate]|exact Logic.I]. }
  split; [|exact En]. refine (Forall2_cons _ _ (conj (gx_serves _) C) (Forall2_cons _ _ (conj (gx_serves _) C) (Forall2_cons _ _ (conj _ _) (Forall2_nil _)))).
  - split; [exact good_quiet|]. split; [exact good_reliable|]. split; [|split; [vm_compute; reflexivity|split; [|split; [discriminate|reflexivity]]]].
    + split; [vm_compute; discriminate|]. intros j v. do 4 (destruct j as [|j]; [vm_compute; intros E; assert (X := f_equal (fun o => match o with Some v => v | None => mksrv true ""%string true true [] end) E); cbn in X; subst v; split; reflexivity|]).
      destruct j; vm_compute; discriminate.
    + intros code. vm_compute. exact Logic.I.
  - split; [lia|]. split; [exact En|]. split; [repeat constructor; unfold byte_ok; cbn; lia|]. split; [constructor|]. split; [vm_compute; lia|exact Logic.I].
Qed.
Example C113_run_ex : let '(sc1, trc1, _, r) := local_announce good_os [] finder (request 0x029101 gr_call) in
  let mail := reach ("224.0.23.0"%string, 3610) (since [] trc1) in
  let x := @area_run pyset_nodup gr_sched (mkarea (mksite good_os ctl_addr sc1 trc1 (length trc1)) mail gr_devs) in
  let answer := [0x10; 0x81; 0; 1; 2; 0x91; 1; 0x0E; 0xF0; 1; 0x71; 1; 0x80; 0] in
  r = Ok true /\ mail = [[0x10; 0x81; 0; 1; 0x0E; 0xF0; 1; 2; 0x91; 1; 0x61; 1; 0x80; 1; 0x31]; [0x10; 0x81; 0; 1; 0x0E; 0xF0; 1; 2; 0x91; 1; 0x61; 1; 0x80; 1; 0x31]] /\
  map outbox (a_devs x) = [[(answer, ctl_addr); (answer, ctl_addr)]; []; []] /\
  map (fun d => option_map (fun o => option_map op_data (get_property 0x80 o)) (dget Z.eqb 0x029101 (ln_objs (t_node d)))) (a_devs x) = [Some (Some [0x31]); Some (Some [0x30]); None].
Proof. vm_compute. repeat split. Qed.
