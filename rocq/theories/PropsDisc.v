(** Property C79: a search on a network of several nodes. *)
From Verif Require Import PyBase BytesM EsvM MsgM PropM ObjM DbData DbM NodeM LocalM CtrlM
  SpecWire SpecObj SpecReq SpecNode SpecProf SpecLocal SpecSrv SpecCtrl SpecEnd SpecLife SpecSelf SpecDisc DictP MapP NodeP ProfP LocalP AnswerP CtrlP EndP SelfP DiscP.
From Verif Require Import SpecReq.

Theorem C79_found_partial : forall (PS : PySet) wc ac sc c trc sc1 trc1 rc devs ls sched,
  quiet wc -> ln_ctl sc = Some c -> c_found c = [] -> 0 <= g_tid (ln_mgr sc) <= 65535 -> listens sc ->
  (* a controller that knows no node searches *)
  ctl_search wc trc sc = (sc1, trc1, rc) ->
  (* on a network of nodes with different addresses *)
  NoDup (map (fun d => fst (t_addr d)) devs) -> Forall2 hosts devs ls ->
  let mail := reach ("224.0.23.0"%string, 3610) (since trc trc1) in
  (* then, whatever the network delivers *)
  let x := area_run sched (mkarea (mksite wc ac sc1 trc1 (length trc1)) mail devs) in
  let answered k d := answered (length mail) (servers_of (t_node d)) (servers_of sc) k sched in
  exists c', ln_ctl (t_node (a_ctl x)) = Some c' /\ listens (t_node (a_ctl x)) /\
  NoDup (map node_ip (ctl_nodes c')) /\
  (* the controller has found only nodes of the network whose answers it has heard, as they are *)
  (forall nd, In nd (ctl_nodes c') -> exists k d l, nth_error devs k = Some d /\ nth_error ls k = Some l /\
     zlen l <= 84 /\ answered k d /\ depicts nd (t_addr d) l) /\
  (* and all of these with up to 84 devices *)
  (forall k d l, nth_error devs k = Some d -> nth_error ls k = Some l -> zlen l <= 84 -> answered k d ->
     exists nd, In nd (ctl_nodes c') /\ depicts nd (t_addr d) l /\
     forall w tr, get_node w tr c' (GATup (fst (t_addr d))) = Ok (Some nd)).
Proof. exact L_C79_found_partial. Qed.
Print Assumptions C79_found_partial.
Theorem C79_sent : forall w tr s c s' tr' r, ln_ctl s = Some c -> 0 <= g_tid (ln_mgr s) <= 65535 -> reliable w -> ctl_search w tr s = (s', tr', r) ->
  length (reach ("224.0.23.0"%string, 3610) (since tr tr')) = length (open_ifs s).
Proof. exact L_C79_sent. Qed.
Print Assumptions C79_sent.
Theorem C79_large_refuted : forall (PS : PySet) wc ac sc c trc sc1 trc1 rc devs ls sched,
  quiet wc -> ln_ctl sc = Some c -> c_found c = [] -> 0 <= g_tid (ln_mgr sc) <= 65535 -> listens sc ->
  ctl_search wc trc sc = (sc1, trc1, rc) ->
  NoDup (map (fun d => fst (t_addr d)) devs) -> Forall2 hosts devs ls ->
  let mail := reach ("224.0.23.0"%string, 3610) (since trc trc1) in
  let x := area_run sched (mkarea (mksite wc ac sc1 trc1 (length trc1)) mail devs) in
  forall k d l, nth_error devs k = Some d -> nth_error ls k = Some l -> 85 <= zlen l ->
  exists c' d', ln_ctl (t_node (a_ctl x)) = Some c' /\ nth_error (a_devs x) k = Some d' /\ mailed ac d' = [] /\
  forall w tr, get_node w tr c' (GATup (fst (t_addr d))) = Ok None.
Proof. exact L_C79_large_refuted. Qed.
Print Assumptions C79_large_refuted.
(** Three nodes with two, one and 85 devices, created and started, and a controller. *)
Definition dx_lamp (i : Z) : obj := mkobj (0x029100 + i) "" [(0x80, mkoprop 0x80 [0x30] 1 1 1)] HSuper 0 [] CObject.
Definition dx_random : np_random := mkrnd [1; 2; 3; 4; 5; 6; 7; 8; 9; 10; 11; 12; 13] 20 21.
Definition dx_acts (l : list Z) : list act := map (fun i => AAdd (Some (dx_lamp i))) l ++ [AStart []].
Definition dx_site (ip : string) (l : list Z) : site :=
  let x := @acts_run pyset_nodup good_os (dx_acts l) (fst (@new_local pyset_nodup false dx_random), []) in
  mksite good_os (ip, 3610) (fst x) (snd x) (length (snd x)).
Definition dx_many : list Z := map Z.of_nat (seq 1 85).
Definition dx_devs : list site := [dx_site "10.0.0.11" [2; 1]; dx_site "10.0.0.12" [7]; dx_site "10.0.0.13" dx_many].
Definition dx_ctl : lnode := fst (@act_step pyset_nodup good_os (set_ln_ctl (Some (mkctl [] None None [])) (fst (@new_local pyset_nodup true dx_random)), []) (AStart [])).

Lemma dx_turns {PS : PySet} w l : Forall gentle l -> forall x k y, turns w x k y ->
  turns w x (k ++ flat_map (fun a => match a with AAdd (Some o) => [o_code o] | _ => [] end) l) (acts_run w l y).
Proof.
  induction 1 as [|a l Ga F IH]; intros x k y T; cbn [flat_map acts_run fold_left]; [rewrite app_nil_r; exact T|].
  rewrite app_assoc. apply IH. now apply turn_act.
Qed.
Definition listensb (s : lnode) : bool :=
  negb (match open_ifs s with [] => true | _ => false end) && forallb (fun v => s_alive v && match s_obs v with [ONode] => true | _ => false end) (g_servers (ln_mgr s)).
Lemma listensb_ok s : listensb s = true -> listens s.
Proof.
  unfold listensb. intros H. apply andb_prop in H as (H1 & H2). split; [intros E; rewrite E in H1; discriminate|].
  intros j v V. apply nth_error_In in V. rewrite forallb_forall in H2. specialize (H2 v V). apply andb_prop in H2 as (A & B). split; [exact A|].
  destruct (s_obs v) as [|[] [|]]; try discriminate. reflexivity.
Qed.
Lemma dx_hosts ip l : Forall (fun i => 0 <= i < 256) l -> listensb (t_node (dx_site ip l)) = true ->
  @hosts pyset_nodup (dx_site ip l) (device_codes (firsts Z.eqb (map (fun i => 0x029100 + i) l))).
Proof.
  intros F L. split; [|split; [|split; [apply listensb_ok; exact L|split; [exact good_quiet|split; [exact good_reliable|reflexivity]]]]].
  - destruct (@new_local pyset_nodup false dx_random) as [s0 r] eqn:E0.
    assert (R : r = Ok tt) by (change r with (snd (s0, r)); rewrite <- E0; vm_compute; reflexivity). subst r.
    exists false, dx_random, s0, good_os, (map (fun i => 0x029100 + i) l). split; [exact E0|]. split; [|reflexivity].
    assert (G : Forall gentle (dx_acts l)).
    { unfold dx_acts. apply Forall_app. split; [|constructor; [exact I|constructor]]. apply Forall_forall. intros a Ia. apply in_map_iff in Ia as (i & <- & Ii). rewrite Forall_forall in F. specialize (F i Ii). change (0x029100 + i <> 0x0EF001). lia. }
    pose proof (@dx_turns pyset_nodup good_os (dx_acts l) G (s0, []) [] (s0, []) (@turn_none pyset_nodup good_os (s0, []))) as T. cbn [app] in T.
    replace (flat_map _ (dx_acts l)) with (map (fun i => 0x029100 + i) l) in T.
    2:{ unfold dx_acts. rewrite flat_map_app, app_nil_r. clear. induction l as [|i l IH]; [reflexivity|]. cbn [map flat_map app]. now f_equal. }
    unfold dx_site. rewrite E0. cbn [fst t_node t_tr]. destruct (@acts_run pyset_nodup good_os (dx_acts l) (s0, [])). exact T.
  - apply Forall_forall. intros k Hk. unfold device_codes in Hk. apply filter_In in Hk as (Hk & _). apply (proj1 (firsts_in Z.eqb zeqb_eq _ _)) in Hk. apply in_map_iff in Hk as (i & <- & Hi).
    rewrite Forall_forall in F. specialize (F i Hi). lia.
Qed.
Definition dx_sched : list move :=
  [GoAnswer 0 0 0; GoSearch 0 1 0; GoSearch 1 2 1; GoAnswer 0 0 0; GoSearch 0 3 0; GoSearch 2 0 0; GoAnswer 0 2 1; GoAnswer 2 1 0; GoAnswer 1 9 0].
(** The first node is found, by its first and by its second answer.  The answer of the second goes to
    a server that does not exist, and the third does not answer. *)
Example C79_ex : exists sc1 trc1 mail,
  @hosts pyset_nodup (dx_site "10.0.0.11" [2; 1]) [0x029102; 0x029101] /\ @hosts pyset_nodup (dx_site "10.0.0.12" [7]) [0x029107] /\
  @hosts pyset_nodup (dx_site "10.0.0.13" dx_many) (map (fun i => 0x029100 + i) dx_many) /\
  listens dx_ctl /\ (exists c, ln_ctl dx_ctl = Some c /\ c_found c = []) /\ g_tid (ln_mgr dx_ctl) = 0 /\
  ctl_search good_os [] dx_ctl = (sc1, trc1, Ok true) /\ mail = reach MULTICAST (since [] trc1) /\ length mail = 2%nat /\
  answered 2 (servers_of (t_node (dx_site "10.0.0.11" [2; 1]))) 4 0 dx_sched /\
  ~ answered 2 (servers_of (t_node (dx_site "10.0.0.12" [7]))) 4 1 dx_sched /\
  exists c', ln_ctl (t_node (a_ctl (@area_run pyset_nodup dx_sched (mkarea (mksite good_os ctl_addr sc1 trc1 (length trc1)) mail dx_devs)))) = Some c' /\
  map (fun nd => (n_addr nd, map o_code (node_objects nd))) (ctl_nodes c') = [(Some ("10.0.0.11"%string, 3610), [0x0EF001; 0x029102; 0x029101])].
Proof.
  destruct (ctl_search good_os [] dx_ctl) as [[sc1 trc1] rc] eqn:E. exists sc1, trc1, (reach MULTICAST (since [] trc1)).
  split; [apply (dx_hosts "10.0.0.11" [2; 1]); [repeat constructor; lia|vm_compute; reflexivity]|].
  split; [apply (dx_hosts "10.0.0.12" [7]); [repeat constructor; lia|vm_compute; reflexivity]|].
  split; [replace (map _ dx_many) with (device_codes (firsts Z.eqb (map (fun i => 0x029100 + i) dx_many))) by (vm_compute; reflexivity); apply dx_hosts|].
  { unfold dx_many. apply Forall_forall. intros i Hi. apply in_map_iff in Hi as (n & <- & Hn). apply in_seq in Hn. lia. }
  { vm_compute. reflexivity. }
  split; [apply listensb_ok; vm_compute; reflexivity|]. split; [eexists; split; vm_compute; reflexivity|]. split; [vm_compute; reflexivity|].
  assert (S : sc1 = fst (fst (ctl_search good_os [] dx_ctl))) by now rewrite E. assert (T : trc1 = snd (fst (ctl_search good_os [] dx_ctl))) by now rewrite E.
  assert (R : rc = snd (ctl_search good_os [] dx_ctl)) by now rewrite E.
  split; [rewrite R; vm_compute; reflexivity|]. split; [reflexivity|]. clear E R. rewrite S, T. clear.
  split; [vm_compute; reflexivity|]. split.
  { exists (firstn 3 dx_sched), 0%nat, 0%nat, (skipn 4 dx_sched). split; [reflexivity|]. split; [lia|]. vm_compute. lia. }
  split.
  { intros (p & j & i & q & H & Hj & _). unfold dx_sched in H.
    repeat (destruct p as [|? p]; [cbn [app] in H; first [discriminate | injection H as <- <- _; lia]|cbn [app] in H; injection H as _ H]). destruct p; discriminate. }
  eexists. split; vm_compute; reflexivity.
Qed.
