(** Property C115: nodes that controllers have found. *)
From Verif Require Import PyBase MsgM PropM ObjM DbM NodeM LocalM CtrlM
  SpecWire SpecReq SpecNode SpecProf SpecLocal SpecSrv SpecCtrl SpecEnd SpecLife SpecSelf SpecSess SpecDisc SpecMany SpecMulti SpecMeet MapP NodeP AnswerP EndP MeetP.
From Verif Require PropsDisc.
From Verif Require Import SpecReq.

(** C115: a search, then calls. *)
Theorem C115_use : forall (PS : PySet) us devs ls T sv evs,
  (* controllers and nodes with different addresses; the nodes have the contents [T] *)
  Forall (fun u => newcomer (fst u)) us -> NoDup (map (fun u => y_addr (fst u)) us) ->
  NoDup (map (fun d => fst (t_addr d)) devs) -> Forall2 (stocked T) devs ls -> (forall a, T a <> None -> In a (map t_addr devs)) ->
  (forall d, In d devs -> (sv (t_addr d) < servers_of (t_node d))%nat) ->
  (* every controller hears an answer of every node to its search *)
  (forall u k d, In u us -> nth_error devs k = Some d ->
     answered (length (open_ifs (y_node (fst u)))) (servers_of (t_node d)) (servers_of (y_node (fst u))) k (snd u)) ->
  (* then, after all searches, *)
  let st := meet_all us devs in
  let x := mkmnet (map (as_peer sv) (snd st)) (fst st) [] [] in
  (* every controller shows every node *)
  (forall c k d l, In c (fst st) -> nth_error devs k = Some d -> nth_error ls k = Some l ->
     exists q nd, ln_ctl (y_node c) = Some q /\ (forall w tr, get_node w tr q (GATup (fst (t_addr d))) = Ok (Some nd)) /\
     depicts nd (t_addr d) l /\ dest_addr (DNode nd) = Some (fst (t_addr d), 3610)) /\
  (* and whatever the controllers call and the network delivers, the calls return what the stores answer *)
  (mrun_ok (mref_start T (length us)) evs ->
   exists x' o r', mnet_run x evs = (x', map (m_returned (multi_tids x)) o) /\ mref_run (mref_start T (length us)) evs = (r', o) /\
   map y_addr (y_devs x') = map t_addr devs /\
   forall v, In v (y_devs x') -> exists St, z_stores r' (y_addr v) = Some St /\ mirrors (y_node v) St).
Proof. exact L_C115_use. Qed.
Print Assumptions C115_use.
(** C115: a controller that has heard no answer. *)
Theorem C115_unheard_boundary : forall (PS : PySet) wc wd jc jd ac an d x S code t cs c,
  quiet wc -> reliable wc -> quiet wd -> reliable wd -> dest_addr d = Some an ->
  (* a controller and a device, both online; the controller has not found the device *)
  online (x_ctl x) jc -> ln_ctl (x_ctl x) = Some c -> 0 <= g_tid (ln_mgr (x_ctl x)) <= 65535 ->
  (forall w tr, get_node w tr c (GATup (fst an)) = Ok None) ->
  online (x_dev x) jd -> ln_ctl (x_dev x) = None -> mirrors (x_dev x) S -> store_ok S ->
  (* a read of properties that may be read and of which the first is no list of devices *)
  call_ok S code (KRead cs) -> S code = Some t -> (forall k, In k cs -> readable t k = true) -> (forall k r, cs = k :: r -> k <> 0xD5 /\ k <> 0xD6) ->
  exists x' v, transact wc wd jc jd ac an (request code (KRead cs)) d x = (x', None) /\ server_at (x_ctl x') jc = Some v /\ s_alive v = false.
Proof. exact L_C115_unheard_boundary. Qed.
Print Assumptions C115_unheard_boundary.
(** Two nodes and two controllers, all created by the library; both controllers search, and then write to and
    read from the nodes. *)
Definition mx_devs : list site := [PropsDisc.dx_site "10.0.0.11" [2; 1]; PropsDisc.dx_site "10.0.0.12" [7]].
Definition mx_lists : list (list Z) := [[0x029102; 0x029101]; [0x029107]].
Definition mx_stores : addr -> option store := fun a => option_map (fun d => contents (t_node d)) (find (fun d => addr_eqb a (t_addr d)) mx_devs).
Definition mx_sched : list move := [GoSearch 0 1 0; GoAnswer 0 0 0; GoSearch 1 2 1; GoSearch 0 3 1; GoAnswer 1 3 0; GoAnswer 0 2 1].
Definition mx_peer (a : addr) : peer := mkpeer good_os a 2 PropsDisc.dx_ctl [] false.
Definition mx_guests : list (peer * list move) := [(mx_peer ctl_addr, mx_sched); (mx_peer ("10.0.0.7"%string, 3610), mx_sched)].
Definition mx_events : list mevent :=
  [MPost 0 (DTup ("10.0.0.11"%string, 3610)) 0x029101 (KWrite [mkprop 0x80 [0x31]]); MPost 1 (DTup ("10.0.0.12"%string, 3610)) 0x029107 (KRead [0x80]);
   MServe 1; MServe 0; MAnswer 1; MAnswer 0; MReturn 0; MReturn 1;
   MPost 1 (DTup ("10.0.0.11"%string, 3610)) 0x029101 (KRead [0x80]); MServe 0; MAnswer 0; MReturn 1;
   MPost 0 (DTup ("10.0.0.11"%string, 3610)) 0x029102 (KRead [0x80; 0x99]); MServe 0; MAnswer 0; MReturn 0].
Lemma mx_stocked ip l : (ip = "10.0.0.11"%string /\ l = [2; 1]) \/ (ip = "10.0.0.12"%string /\ l = [7]) ->
  @stocked pyset_nodup mx_stores (PropsDisc.dx_site ip l) (map (fun i => 0x029100 + i) l).
Proof.
  intros H. assert (L : PropsDisc.listensb (t_node (PropsDisc.dx_site ip l)) = true) by (destruct H as [(-> & ->)|(-> & ->)]; vm_compute; reflexivity).
  assert (D : device_codes (firsts Z.eqb (map (fun i => 0x029100 + i) l)) = map (fun i => 0x029100 + i) l) by (destruct H as [(_ & ->)|(_ & ->)]; vm_compute; reflexivity).
  assert (P : MeetP.plain (t_node (PropsDisc.dx_site ip l)) = true) by (destruct H as [(-> & ->)|(-> & ->)]; vm_compute; reflexivity).
  assert (F : Forall (fun i => 0 <= i < 256) l) by (destruct H as [(_ & ->)|(_ & ->)]; repeat constructor; lia).
  assert (E : mx_stores (ip, 3610) = Some (contents (t_node (PropsDisc.dx_site ip l)))) by (destruct H as [(-> & ->)|(-> & ->)]; reflexivity).
  assert (C : ln_ctl (t_node (PropsDisc.dx_site ip l)) = None) by (destruct H as [(-> & ->)|(-> & ->)]; vm_compute; reflexivity).
  pose proof (PropsDisc.dx_hosts ip l F L) as (Ho & Rg & Li & Q & R & _). rewrite D in *. split.
  - destruct (@new_local pyset_nodup false PropsDisc.dx_random) as [s0 r] eqn:E0.
    assert (Rr : r = Ok tt) by (change r with (snd (s0, r)); rewrite <- E0; vm_compute; reflexivity). subst r.
    exists false, PropsDisc.dx_random, s0, (map (fun i => 0x029100 + i) l). split; [exact E0|]. split; [|symmetry; exact D].
    assert (G : Forall gentle (PropsDisc.dx_acts l)).
    { unfold PropsDisc.dx_acts. apply Forall_app. split; [|constructor; [exact I|constructor]]. apply Forall_forall. intros a Ia. apply in_map_iff in Ia as (i & <- & Ii). rewrite Forall_forall in F. specialize (F i Ii). change (0x029100 + i <> 0x0EF001). lia. }
    pose proof (@PropsDisc.dx_turns pyset_nodup good_os (PropsDisc.dx_acts l) G (s0, []) [] (s0, []) (@turn_none pyset_nodup good_os (s0, []))) as T. cbn [app] in T.
    replace (flat_map _ (PropsDisc.dx_acts l)) with (map (fun i => 0x029100 + i) l) in T.
    2:{ unfold PropsDisc.dx_acts. rewrite flat_map_app, app_nil_r. clear. induction l as [|i l IH]; [reflexivity|]. cbn [map flat_map app]. now f_equal. }
    unfold PropsDisc.dx_site. rewrite E0. cbn [fst t_node t_tr t_os]. destruct (@acts_run pyset_nodup good_os (PropsDisc.dx_acts l) (s0, [])). exact T.
  - split; [exact Rg|]. split; [destruct H as [(_ & ->)|(_ & ->)]; vm_compute; discriminate|]. split; [exact Li|]. split; [exact Q|]. split; [exact R|]. split; [exact C|].
    exists (contents (t_node (PropsDisc.dx_site ip l))). split; [exact E|]. exact (plain_ok _ P).
Qed.
Example C115_ex : Forall (fun u => newcomer (fst u)) mx_guests /\ Forall2 (@stocked pyset_nodup mx_stores) mx_devs mx_lists /\
  (forall u k d, In u mx_guests -> nth_error mx_devs k = Some d -> answered (length (open_ifs (y_node (fst u)))) (servers_of (t_node d)) (servers_of (y_node (fst u))) k (snd u)) /\
  (forall d, In d mx_devs -> (2 < servers_of (t_node d))%nat).
Proof.
  split; [|split; [|split]].
  - assert (A : forall a, newcomer (mx_peer a)).
    { intros a. split; [exact good_quiet|]. split; [exact good_reliable|]. split; [vm_compute; discriminate|]. split; [vm_compute; split; discriminate|]. split; [apply PropsDisc.listensb_ok; vm_compute; reflexivity|vm_compute; lia]. }
    constructor; [exact (A _)|constructor; [exact (A _)|constructor]].
  - exact (Forall2_cons _ _ (mx_stocked "10.0.0.11" [2; 1] (or_introl (conj eq_refl eq_refl))) (Forall2_cons _ _ (mx_stocked "10.0.0.12" [7] (or_intror (conj eq_refl eq_refl))) (Forall2_nil _))).
  - assert (A : forall k d, nth_error mx_devs k = Some d -> answered 2 (servers_of (t_node d)) 4 k mx_sched).
    { intros [|[|[|k]]] d K; cbn [nth_error mx_devs] in K; try discriminate; injection K as <-.
      - exists (firstn 1 mx_sched), 0%nat, 0%nat, (skipn 2 mx_sched). split; [reflexivity|]. split; [lia|vm_compute; lia].
      - exists (firstn 4 mx_sched), 3%nat, 0%nat, (skipn 5 mx_sched). split; [reflexivity|]. split; [lia|vm_compute; lia]. }
    intros u k d [<-|[<-|[]]] K; exact (A k d K).
  - intros d [<-|[<-|[]]]; vm_compute; lia.
Qed.
Example C115_run_ex :
  let st := @meet_all pyset_nodup mx_guests mx_devs in
  let x := mkmnet (map (as_peer (fun _ => 2%nat)) (snd st)) (fst st) [] [] in
  map (fun '(i, m) => (i, option_map (fun m => (m_from m, m_ESV m, map p_data (m_props m))) m)) (snd (@mnet_run pyset_nodup x mx_events)) =
  [(0%nat, Some (Some ("10.0.0.11"%string, 3610), 0x71, [[]])); (1%nat, Some (Some ("10.0.0.12"%string, 3610), 0x72, [[0x30]]));
   (1%nat, Some (Some ("10.0.0.11"%string, 3610), 0x72, [[0x31]])); (0%nat, Some (Some ("10.0.0.11"%string, 3610), 0x52, [[0x30]; []]))] /\
  map (fun '(t, a) => (g_cli t, option_map (fun '(an, (_, (e, ps, _, _))) => (Some an, e, map p_data ps)) a)) (snd (mref_run (mref_start mx_stores 2) mx_events)) =
  [(0%nat, Some (Some ("10.0.0.11"%string, 3610), 0x71, [[]])); (1%nat, Some (Some ("10.0.0.12"%string, 3610), 0x72, [[0x30]]));
   (1%nat, Some (Some ("10.0.0.11"%string, 3610), 0x72, [[0x31]])); (0%nat, Some (Some ("10.0.0.11"%string, 3610), 0x52, [[0x30]; []]))].
Proof. split; vm_compute; reflexivity. Qed.
(** The same read without a search: no answer, then or later. *)
Example C115_unheard_ex :
  let d := PropsDisc.dx_site "10.0.0.12" [7] in
  let calls := [(0x029107, KRead [0x80]); (0x029107, KRead [0x80])] in
  let '(x, l) := @client pyset_nodup good_os good_os 2 2 ctl_addr (t_addr d) (DTup (t_addr d)) calls (mkworld PropsDisc.dx_ctl [] (t_node d) (t_tr d)) in
  l = [None; None] /\ option_map s_alive (server_at (x_ctl x) 2) = Some false.
Proof. vm_compute. split; reflexivity. Qed.
