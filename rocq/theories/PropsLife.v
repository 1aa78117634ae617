(** Properties C69 and C70: sockets and datagrams over the life of a node. *)
From Verif Require Import PyBase BytesM EsvM MsgM PropM ObjM DbData DbM NodeM LocalM CtrlM
  SpecWire SpecObj SpecReq SpecNode SpecProf SpecLocal SpecSrv SpecCtrl SpecEnd SpecLife MapP NodeP ProfP LocalP AnswerP CtrlP EndP LifeP.
From Verif Require Import SpecReq.

Theorem C69_lawful : forall (PS : PySet) w l s tr s' tr', g_servers (ln_mgr s) = [] -> sent tr = [] -> (forall k, times k (opened tr) = times k (closed tr)) ->
  Forall act_ok l -> acts_run w l (s, tr) = (s', tr') ->
  lawful tr' /\
  (* what is open at the end is what the node still uses *)
  forall k, times k (opened tr') = (times k (closed tr') + times k (map (fun v => (s_uni v, s_if v)) (filter s_open (g_servers (ln_mgr s')))))%nat.
Proof. exact L_C69_lawful. Qed.
Print Assumptions C69_lawful.
(** A device that is sent to before it starts, started, asked, restarted, stopped, and asked again. *)
Definition fx_lamp : obj := mkobj 0x029101 "" [(0x80, mkoprop 0x80 [0x30] 1 1 1)] HSuper 0 [] CObject.
Definition fx_dev : lnode := mkln (mknode None [(0x029101, fx_lamp)]) InTable 1 new_manager None.
Definition fx_read : list Z := [0x10; 0x81; 0; 9; 0x0E; 0xF0; 1; 2; 0x91; 1; 0x62; 1; 0x80; 0].
Definition fx_acts : list act :=
  [AAnnounce search_message; AStart []; ARecv 0 (fx_read, ctl_addr); AAnnounce search_message; AStart [];
   ASend search_message (Some ctl_addr); AStop; ARecv 0 (fx_read, ctl_addr); ASend search_message (Some ctl_addr)].
Example C69_ex : Forall act_ok fx_acts /\
  let '(s, tr) := @acts_run pyset_nodup good_os fx_acts (fx_dev, []) in
  length (sent tr) = 4%nat /\ length (opened tr) = 8%nat /\ length (closed tr) = 8%nat /\ g_servers (ln_mgr s) = [].
Proof. split; [repeat constructor; cbn; repeat constructor; unfold byte_ok; lia|]. vm_compute. auto. Qed.
(** [lawful] refuses a datagram after the socket was closed, and an incomplete one. *)
Example C69_lawful_ex : ~ lawful [EvBind true "10.0.0.1" (Ok tt); EvClose true "10.0.0.1"; EvSend "10.0.0.1" fx_read ctl_addr (Ok 14)] /\
  ~ lawful [EvBind true "10.0.0.1" (Ok tt); EvSend "10.0.0.1" [0x10; 0x81] ctl_addr (Ok 2)].
Proof.
  split; intros L.
  - destruct (L [EvBind true "10.0.0.1" (Ok tt); EvClose true "10.0.0.1"] _ _ _ _ [] eq_refl) as (H & _). vm_compute in H. lia.
  - destruct (L [EvBind true "10.0.0.1" (Ok tt)] _ _ _ _ [] eq_refl) as (_ & m & _ & E). apply (f_equal (@length Z)) in E. unfold wire in E. cbn in E. lia.
Qed.

Theorem C70_announced_refuted : forall w tr s l s' tr' r, local_start w tr s l = (s', tr', r) ->
  exists evs, tr' = tr ++ evs /\ sent evs = [].
Proof. exact L_C70_announced_refuted. Qed.
Print Assumptions C70_announced_refuted.
Example C70_announced_ex : exists s tr, local_start good_os [] fx_dev [] = (s, tr, Ok true) /\ length (opened tr) = 4%nat /\ sent tr = [].
Proof. do 2 eexists. split; [vm_compute; reflexivity|]. vm_compute. auto. Qed.
Theorem C70_controller_searches_partial : forall w tr s c s' tr', ln_ctl s = Some c -> 0 <= g_tid (ln_mgr s) <= 65535 -> ctl_start w tr s = (s', tr', Ok true) ->
  exists evs, tr' = tr ++ evs /\
  map (fun x => (fst (fst (fst x)), send_bytes x, snd (fst x))) (sent evs) =
  map (fun i => (i, wire (mkmsg (g_tid (ln_mgr s) mod 65535 + 1) 0x0EF001 0x0EF001 0x62 [mkprop 0xD6 []] [] [] None None), ("224.0.23.0"%string, 3610))) (open_ifs s').
Proof. exact L_C70_controller_searches_partial. Qed.
Print Assumptions C70_controller_searches_partial.
Example C70_ex : exists s tr, ctl_start good_os [] finder = (s, tr, Ok true) /\
  map send_bytes (sent tr) = let b := [0x10; 0x81; 0; 1; 0x0E; 0xF0; 1; 0x0E; 0xF0; 1; 0x62; 1; 0xD6; 0] in [b; b].
Proof. do 2 eexists. split; [vm_compute; reflexivity|]. vm_compute. auto. Qed.
