(** Lemmas for C126. *)
From Verif Require Import PyBase BytesM EsvM MsgM PropM ObjM DbData DbM NodeM LocalM CtrlM
  SpecWire SpecObj SpecReq SpecDb SpecNode SpecProf SpecLocal SpecSrv SpecCtrl SpecEnd SpecSess SpecMany SpecSolo DictP BytesP WireP CodecP ObjP MapP ReqP DbP NodeP ProfP LocalP AnswerP SrvP CtrlP EndP SessP BenchP ManyP.
From Verif Require Import SpecReq.
Require Import ZifyBool.

(** ** A node, with or without a controller, treats a call for one of its objects *)
Definition comes_from (s : lnode) (code : Z) : Z := match ln_ctl s with None => code | Some _ => 0x0EF001 end.
Lemma node_calls (PS : PySet) wd tr sd jd ac sc St code k : quiet wd -> reliable wd -> online sd jd ->
  mirrors sd St -> store_ok St -> call_ok St code k ->
  exists sd' td, arrive wd tr sd jd ac [wire (as_received sc ac (request code k))] = (sd', td) /\ (exists evs, td = tr ++ evs) /\
  ln_mgr sd' = ln_mgr sd /\ ln_ctl sd' = ln_ctl sd /\ open_ifs sd' = open_ifs sd /\ mirrors sd' (store_after St code k) /\ store_ok (store_after St code k) /\
  match store_reply St code k with
  | Some a => good_answer (answer_of (next_tid sc) (comes_from sd code) a) /\ exists i n, sent (since tr td) = [(i, wire (answer_of (next_tid sc) (comes_from sd code) a), ac, Ok n)] /\ 0 < n
  | None => sent (since tr td) = []
  end.
Proof.
  intros Qd Rd Od M So (Co & En & D1 & D2 & Le & Cr).
  pose proof (request_frame sc ac code k Co En D1 D2) as Fq. pose proof (next_tid_range sc) as Ti.
  set (q := as_received sc ac (request code k)) in *.
  assert (Dm : m_DEOJ q = code) by (destruct k; reflexivity).
  assert (Rq : is_request (m_ESV q) = true) by (destruct k; reflexivity).
  assert (Lq : (length (wire q) <= 1024)%nat) by (rewrite wire_len in *; destruct k; exact Le).
  assert (Hq : received_from ac q) by (exists (set_from None q); split; [exact Fq|reflexivity]).
  destruct (node_received wd tr sd q) as [[sd1 td1] rd] eqn:NR.
  destruct (node_received_spec wd tr sd ac q Hq) as (s2 & evs & r2 & E2 & LSp & _). rewrite NR in E2. injection E2 as <- -> <-.
  specialize (LSp (or_intror Rq)). unfold local_spec in LSp. rewrite Dm in LSp.
  unfold store_reply, store_after. pose proof (M code) as Mc. destruct (St code) as [t|] eqn:Sc.
  - destruct (zget code (ln_objs sd)) as [o|] eqn:Zo; [|contradiction]. destruct Cr as (Ra & Kn).
    assert (To : table_ok t) by (intros c0 l; exact (So code t c0 l Sc)).
    assert (So' : store_ok (fun i => if i =? code then Some (after t k) else St i)).
    { intros i t0 c0 l. destruct (i =? code); [|apply So]. intros E. assert (t0 = after t k) as -> by congruence. apply (after_ok t k code To En D1 D2). }
    destruct (obj_call sc ac code o t k Mc Kn) as (o' & Ob & H'). fold q in Ob.
    assert (Mi : mirrors (put_obj code o' sd) (fun i => if i =? code then Some (after t k) else St i)).
    { intros i. rewrite zget_put. destruct (Z.eqb_spec i code) as [->|Ni]; [exact H'|exact (M i)]. }
    destruct LSp as (oe & snds2 & -> & Foe & [(_ & _ & NQ & _)|LSp]); [contradiction|]. rewrite Ob in LSp.
    destruct (reply t k) as [[[[e ps] ss] gs]|] eqn:Rp.
    + cbn [option_map answer_msg] in Ob, LSp.
      destruct (reply_frame (next_tid sc) code t k e ps ss gs Ti Co To Rp En D1 D2) as (Fc & N73).
      assert (Fr : frame_msg (mkmsg (next_tid sc) (comes_from sd code) 0x0EF001 e ps ss gs None None)).
      { apply (reply_frame (next_tid sc) (comes_from sd code) t k e ps ss gs Ti); [unfold comes_from; destruct (ln_ctl sd); [lia|exact Co]|exact To|exact Rp|destruct k; exact En|destruct k; exact D1|destruct k; exact D2]. }
      destruct Ra as (La & Ea).
      pose proof (reply_not_request _ _ _ _ _ _ Rp) as Nr.
      unfold answer_of. cbn [answer_msg]. set (rsp := mkmsg (next_tid sc) code 0x0EF001 e ps ss gs None None) in *.
      set (rsp1 := mkmsg (next_tid sc) (comes_from sd code) 0x0EF001 e ps ss gs None None) in *.
      destruct LSp as (_ & g2 & -> & G2 & t2 & St2 & LSp).
      destruct LSp as [(_ & Tri2 & Fo2 & AR)|(NE & _)]; [|exfalso; apply NE; apply Fc].
      unfold stamped in St2. change (m_TID q) with (next_tid sc) in St2.
      assert (Tr : 0 < next_tid sc) by (unfold next_tid; pose proof (Z.mod_pos_bound (g_tid (ln_mgr sc)) 65535); lia).
      replace (next_tid sc =? 0) with false in St2 by lia. destruct St2 as (-> & ->).
      change (m_ESV rsp) with e in Tri2. replace (e =? 0x73) with false in Tri2 by lia. cbv zeta in Tri2.
      assert (Wr : wire (set_TID (next_tid sc) (set_SEOJ (source sd rsp) rsp)) = wire rsp1) by (unfold source, rsp1, comes_from; destruct (ln_ctl sd); reflexivity).
      rewrite Wr in Tri2. pose proof (tries_reliable wd _ _ _ _ (wire_nonempty rsp1) Rd Tri2 Fo2) as TR.
      destruct (open_ifs sd) as [|i2 ifs2] eqn:Oi2; [exfalso; apply (proj1 Od); exact Oi2|]. destruct TR as (n2 & -> & Np2).
      assert (rd = Ok tt) as ->.
      { destruct rd as [[]|x]; [reflexivity|]. exfalso. destruct AR as (y & [<-|[]] & Y). discriminate. }
      exists (set_ln_mgr (ln_mgr sd) (put_obj code o' sd)), (tr ++ oe ++ map ev_of [(i2, wire rsp1, ac, Ok n2)]).
      split; [change (wire q) with (wire (set_from None q)); apply arrive_one; [exact Od|exact Fq|exact Lq|exact NR]|]. split; [eexists; reflexivity|].
      split; [reflexivity|]. split; [reflexivity|]. split; [exact Oi2|]. split; [exact Mi|]. split; [exact So'|]. split.
      * split; [exact Fr|]. split; [rewrite wire_len in *; exact La|]. split; [exact N73|]. split; [exact Nr|]. split; [reflexivity|exact Ea].
      * exists i2, n2. split; [|exact Np2]. rewrite since_app, sent_app, (obj_events_sent _ _ _ Foe), sent_evs. reflexivity.
    + cbn [option_map] in LSp. destruct LSp as (_ & g2 & -> & G2 & -> & -> & ->).
      exists (set_ln_mgr (ln_mgr sd) (put_obj code o' sd)), (tr ++ oe ++ map ev_of []).
      split; [change (wire q) with (wire (set_from None q)); apply arrive_one; [exact Od|exact Fq|exact Lq|exact NR]|]. split; [eexists; reflexivity|].
      split; [reflexivity|]. split; [reflexivity|]. split; [reflexivity|]. split; [exact Mi|]. split; [exact So'|].
      rewrite since_app, sent_app, (obj_events_sent _ _ _ Foe). reflexivity.
  - destruct (zget code (ln_objs sd)) as [o|] eqn:Zo; [contradiction|]. destruct LSp as (-> & -> & ->).
    exists sd, (tr ++ []). split; [change (wire q) with (wire (set_from None q)); apply arrive_one; [exact Od|exact Fq|exact Lq|exact NR]|]. split; [eexists; reflexivity|].
    split; [reflexivity|]. split; [reflexivity|]. split; [reflexivity|]. split; [exact M|]. split; [exact So|]. rewrite since_app. reflexivity.
Qed.
Lemma own_calls (PS : PySet) wd tr sd c jd ac sc St code k : quiet wd -> reliable wd -> online sd jd -> ln_ctl sd = Some c ->
  mirrors sd St -> store_ok St -> call_ok St code k ->
  exists sd' td, arrive wd tr sd jd ac [wire (as_received sc ac (request code k))] = (sd', td) /\
  ln_mgr sd' = ln_mgr sd /\ ln_ctl sd' = Some c /\ open_ifs sd' = open_ifs sd /\ mirrors sd' (store_after St code k) /\ store_ok (store_after St code k) /\
  match store_reply St code k with
  | Some a => good_answer (answer_of (next_tid sc) 0x0EF001 a) /\ exists i n, sent (since tr td) = [(i, wire (answer_of (next_tid sc) 0x0EF001 a), ac, Ok n)] /\ 0 < n
  | None => sent (since tr td) = []
  end.
Proof.
  intros Qd Rd Od Cd M So C. destruct (node_calls PS wd tr sd jd ac sc St code k Qd Rd Od M So C) as (sd' & td & H1 & _ & H). exists sd', td. unfold comes_from in H. rewrite Cd in H. split; [exact H1|exact H].
Qed.

(** ** One call *)
Lemma solo_call (PS : PySet) w jd jc a d s tr St code k :
  quiet w -> reliable w -> dest_addr d = Some a -> at_home jd jc a s ->
  mirrors s St -> store_ok St -> call_ok St code k ->
  exists s' tr', solo_post w jd jc a (request code k) d (s, tr) =
    (s', tr', option_map (fun '(e, ps, ss, gs) => mkmsg (next_tid s) 0x0EF001 0x0EF001 e ps ss gs (Some a) None) (store_reply St code k)) /\
  at_home jd jc a s' /\ mirrors s' (store_after St code k) /\ store_ok (store_after St code k) /\ g_tid (ln_mgr s') = next_tid s.
Proof.
  intros Q R Da (Od & Oc & (c & nd & C & Nd) & Tc) M So Ok_. pose proof Ok_ as (Co & En & D1 & D2 & _).
  pose proof (next_tid_range s) as Ti. assert (T0 : m_TID (request code k) = 0) by (destruct k; reflexivity).
  destruct (ctl_sends w tr s jc a a d (request code k) c Q R Da Oc C Tc T0 En) as (m' & tc & CS & Tm & Re).
  assert (PB : post_begin w tr s (request code k) d = (set_ln_ctl (Some (set_post (Some m') None c)) (set_ln_mgr (mkmgr (next_tid s) (g_servers (ln_mgr s))) s), tc, m', Ok true)).
  { unfold post_begin. rewrite C, CS. reflexivity. }
  set (c1 := set_post (Some m') None c) in *. set (g1 := mkmgr (next_tid s) (g_servers (ln_mgr s))) in *.
  set (s1 := set_ln_ctl (Some c1) (set_ln_mgr g1 s)) in *.
  assert (O1 : forall j, online s j -> online s1 j) by (intros j H; exact H).
  destruct (own_calls PS w tc s1 c1 jd a s St code k Q R (O1 _ Od) eq_refl M So Ok_) as (s2 & td & A2 & G2 & C2 & I2 & M2 & S2 & An).
  assert (O2 : forall j, online s j -> online s2 j).
  { intros j (H1 & v & V & H). split; [rewrite I2; exact H1|]. exists v. split; [|exact H]. unfold server_at in *. rewrite G2. exact V. }
  unfold solo_post. cbn [fst snd]. rewrite PB, Re, A2.
  destruct (store_reply St code k) as [an|] eqn:Sr.
  - destruct An as (Ga & i & n & Se & Np). assert (Rn : reach a (since tc td) = [wire (answer_of (next_tid s) 0x0EF001 an)]) by exact (reach_one a _ i _ n Se Np).
    rewrite Rn. destruct (cli_gets PS w td s2 jc a _ c1 nd Q (O2 _ Oc) C2 Nd Ga) as (c' & nd' & te & A3 & Nd' & Rq & Rs). rewrite A3.
    exists (set_ln_ctl (Some c') s2), te. split.
    + f_equal. unfold post_end. cbn [ln_ctl set_ln_ctl]. rewrite Rs. unfold post_step, c1. cbn [set_post c_req c_resp].
      destruct an as [[[e ps] ss] gs]. cbn [option_map answer_of answer_msg]. unfold answer_of. cbn [answer_msg set_from m_TID m_SEOJ m_DEOJ m_ESV m_props m_sets m_gets m_from m_to]. rewrite Tm, Z.eqb_refl. reflexivity.
    + split; [|split; [exact M2|split; [exact S2|cbn [set_ln_ctl ln_mgr]; rewrite G2; reflexivity]]].
      split; [exact (O2 _ Od)|]. split; [exact (O2 _ Oc)|]. split; [exists c', nd'; split; [reflexivity|exact Nd']|]. cbn [set_ln_ctl ln_mgr]. rewrite G2. cbn. change (g_tid (ln_mgr s1)) with (next_tid s). lia.
  - unfold reach. rewrite An. cbn [filter map arrive run]. exists s2, td. split; [unfold post_end; rewrite C2; reflexivity|].
    split; [|split; [exact M2|split; [exact S2|rewrite G2; reflexivity]]].
    split; [exact (O2 _ Od)|]. split; [exact (O2 _ Oc)|]. split; [exists c1, nd; split; [exact C2|exact Nd]|]. rewrite G2. change (g_tid (ln_mgr s1)) with (next_tid s). lia.
Qed.

(** C126 *)
Lemma L_C126_session_partial : forall (PS : PySet) w jd jc a d s tr S l,
  quiet w -> reliable w -> dest_addr d = Some a -> at_home jd jc a s ->
  mirrors s S -> store_ok S -> session_ok S l ->
  exists s' tr', solo_client w jd jc a d l (s, tr) = (s', tr', solo_replies a (next_tid s) S l) /\
  at_home jd jc a s' /\ mirrors s' (store_run S l).
Proof.
  intros PS w jd jc a d s tr St l Q R Da. revert s tr St. induction l as [|[code k] l IH]; intros s tr St J M So Ok_.
  - exists s, tr. cbn. auto.
  - destruct Ok_ as (Oc & Ol). destruct (solo_call PS w jd jc a d s tr St code k Q R Da J M So Oc) as (s1 & t1 & X & J1 & M1 & S1 & G).
    destruct (IH s1 t1 _ J1 M1 S1 Ol) as (s2 & t2 & X2 & J2 & M2). exists s2, t2. cbn [solo_client solo_replies store_run]. rewrite X, X2.
    split; [|split; [exact J2|exact M2]]. assert (Nt : next_tid s1 = next_tid s mod 65535 + 1) by (unfold next_tid at 1; rewrite G; reflexivity).
    rewrite Nt. reflexivity.
Qed.

(** ** A controller that has searched, on a network with others *)
From Verif Require Import SpecDisc SpecGroup SpecCrowd CrowdP.
Lemma L_C126_ready : forall (PS : PySet) sites ls sched k d c j j', crowd sites ls ->
  nth_error sites k = Some d -> ln_ctl (t_node d) = Some c -> told sites k k sched ->
  (j < servers_of (t_node d))%nat -> (j' < servers_of (t_node d))%nat ->
  exists d', nth_error (crowd_run sched sites) k = Some d' /\ t_os d' = t_os d /\ t_addr d' = t_addr d /\ at_home j j' (t_addr d) (t_node d').
Proof.
  intros PS sites ls sched k d c j j' Cr K C T Hj Hj'. destruct (crowd_all sites ls Cr sched) as (_ & W). destruct (crowd_list sites ls Cr k d K) as (l & El).
  destruct (W k d l K El) as (d' & Ed & (Eo & Ea & Es & _ & _ & (Op & Li) & Tg & _) & S0). rewrite C in S0. destruct S0 as (c' & Ec & _ & _ & T2).
  exists d'. split; [exact Ed|]. split; [exact Eo|]. split; [exact Ea|].
  assert (O : forall i, (i < servers_of (t_node d))%nat -> online (t_node d') i).
  { intros i Hi. split; [exact Op|]. rewrite <- Es in Hi. unfold servers_of in Hi. destruct (server_at (t_node d') i) as [v|] eqn:V; [|unfold server_at in V; apply nth_error_None in V; lia]. exists v. split; [reflexivity|exact (Li i v V)]. }
  split; [exact (O j Hj)|]. split; [exact (O j' Hj')|]. split; [|exact Tg]. destruct (T2 k d K T) as (nd & G). exists c', nd. auto.
Qed.

(** ** What goes wrong *)
Definition hm_prof : obj := mkobj 0x0EF001 "" [(0x80, mkoprop 0x80 [0x30] 1 0 1)] HSuper 0 [] CObject.
Definition hm_lamp : obj := mkobj 0x029101 "" [(0x80, mkoprop 0x80 [0x31] 1 1 1)] HSuper 0 [] CObject.
Definition hm_objs : list (Z * obj) := [(0x0EF001, hm_prof); (0x029101, hm_lamp)].
Definition hm_node : lnode :=
  fst (fst (local_start good_os [] (mkln (mknode None hm_objs) InTable 1 new_manager (Some (mkctl [("10.0.0.8"%string, mknode (Some ctl_addr) hm_objs)] None None []))) [])).
Definition hm_table (o : obj) : table := fun c => option_map (cell_of (o_handler o)) (get_property c o).
Definition hm_store : store := fun k => option_map hm_table (zget k hm_objs).
Lemma hm_home : at_home 2 2 ctl_addr hm_node /\ mirrors hm_node hm_store /\ store_ok hm_store /\ call_ok hm_store 0x029101 (KRead [0x80]).
Proof.
  assert (O : online hm_node 2) by (split; [vm_compute; discriminate|eexists; split; [vm_compute; reflexivity|split; reflexivity]]).
  assert (Zk : forall k, zget k (ln_objs hm_node) = if k =? 0x0EF001 then Some hm_prof else if k =? 0x029101 then Some hm_lamp else None) by (intros k; reflexivity).
  assert (Zs : forall k, zget k hm_objs = if k =? 0x0EF001 then Some hm_prof else if k =? 0x029101 then Some hm_lamp else None) by (intros k; reflexivity).
  assert (F : forall o, o = hm_prof \/ o = hm_lamp -> builtin (o_handler o) /\ wf_obj o /\ forall c p, get_property c o = Some p -> bytes_ok (op_data p) /\ zlen (op_data p) <= 255).
  { intros o Ho. split; [destruct Ho as [-> | ->]; now left|]. split; intros c p G; destruct Ho as [-> | ->]; unfold get_property in G; cbn in G;
    repeat match type of G with (if ?b then _ else _) = _ => destruct b eqn:?; [injection G as <-|] end; try discriminate; cbn [op_code op_data];
    try (symmetry; apply Z.eqb_eq; assumption); (split; [repeat constructor; unfold byte_ok; lia|unfold zlen; cbn; lia]). }
  split. { split; [exact O|]. split; [exact O|]. split; [do 2 eexists; split; vm_compute; reflexivity|vm_compute; split; discriminate]. }
  split. { intros k. unfold hm_store. rewrite Zk, Zs. destruct (k =? 0x0EF001); [|destruct (k =? 0x029101); [|exact Logic.I]]; cbn [option_map];
    [destruct (F hm_prof (or_introl eq_refl)) as (A & B & _)|destruct (F hm_lamp (or_intror eq_refl)) as (A & B & _)]; (split; [exact A|]; split; [exact B|]; intros c; reflexivity). }
  split. { intros k t c l Hs Ht. unfold hm_store in Hs. rewrite Zs in Hs.
    assert (exists o, (o = hm_prof \/ o = hm_lamp) /\ t = hm_table o) as (o & Ho & ->).
    { destruct (k =? 0x0EF001); [|destruct (k =? 0x029101); [|discriminate]]; eexists; (split; [|injection Hs as <-; reflexivity]); auto. }
    unfold hm_table in Ht. destruct (get_property c o) as [p|] eqn:G; [|discriminate]. injection Ht as <-. destruct (F o Ho) as (_ & _ & K). exact (K c p G). }
  split; [lia|]. split; [split; [unfold byte_ok; cbn; lia|vm_compute; repeat split; repeat constructor; discriminate]|].
  split; [repeat constructor; unfold byte_ok; lia|]. split; [repeat constructor|]. split; [apply Nat.leb_le; vm_compute; reflexivity|]. vm_compute. repeat split; try discriminate; lia.
Qed.

(** The answer does not come from the object that was asked, and what is recorded of the node itself is
    recorded on its node profile: the operation status of the lamp becomes that of the profile. *)
Lemma L_C126_source_refuted : exists w jd jc a d s S code k,
  quiet w /\ reliable w /\ dest_addr d = Some a /\ at_home jd jc a s /\ mirrors s S /\ store_ok S /\ call_ok S code k /\
  exists (PS : PySet) s' tr' m c nd o, solo_post w jd jc a (request code k) d (s, []) = (s', tr', Some m) /\
  k = KRead [0x80] /\ code = 0x029101 /\ m_ESV m = 0x72 /\ m_props m = [mkprop 0x80 [0x31]] /\ m_SEOJ m = 0x0EF001 /\
  ln_ctl s' = Some c /\ sget (fst a) (c_found c) = Some nd /\ zget 0x0EF001 (n_objs nd) = Some o /\ get_property_data 0x80 o = Some [0x31] /\
  option_map (get_property_data 0x80) (zget 0x0EF001 (ln_objs s')) = Some (Some [0x30]).
Proof.
  destruct hm_home as (H1 & H2 & H3 & H4).
  exists good_os, 2%nat, 2%nat, ctl_addr, (DTup ctl_addr), hm_node, hm_store, 0x029101, (KRead [0x80]).
  split; [exact good_quiet|]. split; [exact good_reliable|]. split; [reflexivity|]. do 4 (split; [assumption|]).
  exists pyset_nodup. do 6 eexists. split; [vm_compute; reflexivity|]. do 5 (split; [reflexivity|]). split; [reflexivity|]. split; [vm_compute; reflexivity|]. split; [vm_compute; reflexivity|]. split; vm_compute; reflexivity.
Qed.
