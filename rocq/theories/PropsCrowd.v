(** Property C125: several controllers search on one network. *)
From Verif Require Import PyBase BytesM EsvM MsgM PropM ObjM DbData DbM NodeM LocalM CtrlM
  SpecWire SpecObj SpecReq SpecNode SpecProf SpecLocal SpecSrv SpecCtrl SpecEnd SpecLife SpecSelf SpecDisc SpecGroup SpecCrowd
  DictP MapP NodeP ProfP LocalP AnswerP CtrlP EndP SelfP DiscP CrowdP PropsDisc.
From Verif Require Import SpecReq.

(** C125: what each controller has found, all nodes go on working, all that is on the network, and
    that every node can be found at any time. *)
Theorem C125_found : forall (PS : PySet) sites ls sched k d c, crowd sites ls ->
  nth_error sites k = Some d -> ln_ctl (t_node d) = Some c ->
  exists d' c', nth_error (crowd_run sched sites) k = Some d' /\ ln_ctl (t_node d') = Some c' /\ NoDup (map node_ip (ctl_nodes c')) /\
  (* a controller has found only nodes of the network that have answered it, as they are *)
  (forall nd, In nd (ctl_nodes c') -> exists i p l, nth_error sites i = Some p /\ nth_error ls i = Some l /\
     told sites i k sched /\ depicts nd (t_addr p) l) /\
  (* and all of them *)
  (forall i p l, nth_error sites i = Some p -> nth_error ls i = Some l -> told sites i k sched ->
     exists nd, In nd (ctl_nodes c') /\ depicts nd (t_addr p) l /\ forall w tr, get_node w tr c' (GATup (fst (t_addr p))) = Ok (Some nd)).
Proof. exact L_C125_found. Qed.
Print Assumptions C125_found.
Theorem C125_lasting : forall (PS : PySet) sites ls sched k d l, crowd sites ls ->
  nth_error sites k = Some d -> nth_error ls k = Some l ->
  exists d', nth_error (crowd_run sched sites) k = Some d' /\ t_addr d' = t_addr d /\ listens (t_node d') /\
  servers_of (t_node d') = servers_of (t_node d) /\ device_codes (dkeys (ln_objs (t_node d'))) = l /\
  (ln_ctl (t_node d) = None <-> ln_ctl (t_node d') = None).
Proof. exact L_C125_lasting. Qed.
Print Assumptions C125_lasting.
Theorem C125_traffic : forall (PS : PySet) sites ls sched i d l p b to, crowd sites ls ->
  nth_error sites i = Some d -> nth_error ls i = Some l ->
  nth_error (crowd_run sched sites) i = Some p -> In (b, to) (outbox p) ->
  (* the search of a controller to all *)
  (to = ("224.0.23.0"%string, 3610) /\ ln_ctl (t_node d) <> None /\
   exists t, 0 < t < 65536 /\ denotes b (mkmsg t 0x0EF001 0x0EF001 0x62 [mkprop 0xD6 []] [] [] None None)) \/
  (* or an answer to a controller *)
  ((exists k d1, nth_error sites k = Some d1 /\ t_addr d1 = to /\ ln_ctl (t_node d1) <> None) /\
   exists f, denotes b f /\ m_ESV f = 0x72 /\ m_SEOJ f = 0x0EF001 /\ m_DEOJ f = 0x0EF001 /\ m_props f = [mkprop 0xD6 (zlen l :: flat_map (be 3) l)]).
Proof. exact L_C125_traffic. Qed.
Print Assumptions C125_traffic.
Theorem C125_reach : forall (PS : PySet) sites ls sched k d c i p l j j', crowd sites ls ->
  nth_error sites k = Some d -> ln_ctl (t_node d) = Some c ->
  nth_error sites i = Some p -> nth_error ls i = Some l -> (j < servers_of (t_node p))%nat -> (j' < servers_of (t_node d))%nat ->
  (* at any time a search, one of its datagrams and one answer are enough *)
  exists n n', let x := crowd_run (sched ++ [Ask k; Pass k n i j; Pass i n' k j']) sites in
  exists d' c' nd, nth_error x k = Some d' /\ ln_ctl (t_node d') = Some c' /\ In nd (ctl_nodes c') /\ depicts nd (t_addr p) l /\
  forall w tr, get_node w tr c' (GATup (fst (t_addr p))) = Ok (Some nd).
Proof. exact L_C125_reach. Qed.
Print Assumptions C125_reach.
(** Two controllers, the first with a lamp, and a node with two lamps. *)
Definition cw_site (ctl : bool) (ip : string) (l : list Z) : site :=
  let x := @acts_run pyset_nodup good_os (dx_acts l) (fst (@new_local pyset_nodup ctl dx_random), []) in
  mksite good_os (ip, 3610) (fst x) (snd x) (length (snd x)).
Lemma cw_hosts ctl ip l : Forall (fun i => 0 <= i < 256) l -> listensb (t_node (cw_site ctl ip l)) = true ->
  @hosts pyset_nodup (cw_site ctl ip l) (device_codes (firsts Z.eqb (map (fun i => 0x029100 + i) l))).
Proof.
  intros F L. split; [|split; [|split; [apply listensb_ok; exact L|split; [exact good_quiet|split; [exact good_reliable|reflexivity]]]]].
  - destruct (@new_local pyset_nodup ctl dx_random) as [s0 r] eqn:E0.
    assert (R : r = Ok tt) by (change r with (snd (s0, r)); rewrite <- E0; destruct ctl; vm_compute; reflexivity). subst r.
    exists ctl, dx_random, s0, good_os, (map (fun i => 0x029100 + i) l). split; [exact E0|]. split; [|reflexivity].
    assert (G : Forall gentle (dx_acts l)).
    { unfold dx_acts. apply Forall_app. split; [|constructor; [exact I|constructor]]. apply Forall_forall. intros a Ia. apply in_map_iff in Ia as (i & <- & Ii). rewrite Forall_forall in F. specialize (F i Ii). change (0x029100 + i <> 0x0EF001). lia. }
    pose proof (@dx_turns pyset_nodup good_os (dx_acts l) G (s0, []) [] (s0, []) (@turn_none pyset_nodup good_os (s0, []))) as T. cbn [app] in T.
    replace (flat_map _ (dx_acts l)) with (map (fun i => 0x029100 + i) l) in T.
    2:{ unfold dx_acts. rewrite flat_map_app, app_nil_r. clear. induction l as [|i l IH]; [reflexivity|]. cbn [map flat_map app]. now f_equal. }
    unfold cw_site. rewrite E0. cbn [fst t_node t_tr]. destruct (@acts_run pyset_nodup good_os (dx_acts l) (s0, [])). exact T.
  - apply Forall_forall. intros k Hk. unfold device_codes in Hk. apply filter_In in Hk as (Hk & _). apply (proj1 (firsts_in Z.eqb zeqb_eq _ _)) in Hk. apply in_map_iff in Hk as (i & <- & Hi).
    rewrite Forall_forall in F. specialize (F i Hi). lia.
Qed.
Definition cw_sites : list site := [cw_site true "10.0.0.8" [2]; cw_site true "10.0.0.9" []; cw_site false "10.0.0.11" [7; 1]].
Definition cw_lists : list (list Z) := [[0x029102]; []; [0x029107; 0x029101]].
Example C125_ex : @crowd pyset_nodup cw_sites cw_lists.
Proof.
  split; [|split; [|split; [|split]]].
  - constructor; [apply (cw_hosts true "10.0.0.8" [2]); [repeat constructor; lia|vm_compute; reflexivity]|].
    constructor; [apply (cw_hosts true "10.0.0.9" []); [constructor|vm_compute; reflexivity]|].
    constructor; [apply (cw_hosts false "10.0.0.11" [7; 1]); [repeat constructor; lia|vm_compute; reflexivity]|constructor].
  - change (NoDup ["10.0.0.8"; "10.0.0.9"; "10.0.0.11"]%string). repeat constructor; cbn; intuition discriminate.
  - repeat constructor; vm_compute; discriminate.
  - repeat constructor; discriminate.
  - assert (H : forall s, match ln_ctl s with Some c => c_found c | None => [] end = [] -> forall c, ln_ctl s = Some c -> c_found c = []) by (intros s X c E; rewrite E in X; exact X).
    constructor; [|constructor; [|constructor; [|constructor]]]; (split; [vm_compute; split; discriminate|]); apply H; vm_compute; reflexivity.
Qed.
(** Both search; the first hears its own search, the second and the node; the second only the node, whose
    answer for the first reaches only the first. *)
Definition cw_sched : list stir :=
  [Ask 0; Ask 1; Ask 2; Pass 0 0 2 1; Pass 1 1 2 2; Pass 0 1 1 0; Pass 0 0 0 3; Pass 2 0 1 0; Pass 2 0 0 0; Pass 2 1 1 3; Pass 1 2 0 1; Pass 0 2 0 0; Pass 0 9 1 1; Pass 2 1 1 1]%nat.
Definition cw_view (d : site) : option (list (option addr * list Z)) :=
  option_map (fun c => map (fun nd => (n_addr nd, map o_code (node_objects nd))) (ctl_nodes c)) (ln_ctl (t_node d)).
Example C125_run_ex : map cw_view (@crowd_run pyset_nodup cw_sched cw_sites) =
  [Some [(Some ("10.0.0.11"%string, 3610), [0x0EF001; 0x029107; 0x029101]); (Some ("10.0.0.9"%string, 3610), [0x0EF001]); (Some ("10.0.0.8"%string, 3610), [0x0EF001; 0x029102])];
   Some [(Some ("10.0.0.11"%string, 3610), [0x0EF001; 0x029107; 0x029101])]; None] /\
  map (fun d => map snd (outbox d)) (@crowd_run pyset_nodup cw_sched cw_sites) =
  [[("224.0.23.0"%string, 3610); ("224.0.23.0"%string, 3610); ("10.0.0.8"%string, 3610)]; [("224.0.23.0"%string, 3610); ("224.0.23.0"%string, 3610); ("10.0.0.8"%string, 3610)];
   [("10.0.0.8"%string, 3610); ("10.0.0.9"%string, 3610)]] /\
  @told pyset_nodup cw_sites 2 1 cw_sched /\ @told pyset_nodup cw_sites 0 0 cw_sched.
Proof.
  split; [vm_compute; reflexivity|]. split; [vm_compute; reflexivity|]. split.
  - exists (firstn 9 cw_sched), 1%nat, 3%nat, (skipn 10 cw_sched). do 3 eexists. split; [reflexivity|]. split; [vm_compute; reflexivity|]. split; [reflexivity|]. split; [vm_compute; lia|]. vm_compute. reflexivity.
  - exists (firstn 11 cw_sched), 2%nat, 0%nat, (skipn 12 cw_sched). do 3 eexists. split; [reflexivity|]. split; [vm_compute; reflexivity|]. split; [reflexivity|]. split; [vm_compute; lia|]. vm_compute. reflexivity.
Qed.
