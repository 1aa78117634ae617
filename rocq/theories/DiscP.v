(** Lemmas for C79. *)
From Verif Require Import PyBase BytesM EsvM MsgM PropM ObjM DbData DbM NodeM LocalM CtrlM
  SpecWire SpecObj SpecReq SpecDb SpecNode SpecProf SpecLocal SpecSrv SpecCtrl SpecEnd SpecLife SpecSelf SpecDisc
  DictP BytesP WireP CodecP ObjP MapP ReqP DbP NodeP ProfP LocalP AnswerP SrvP CtrlP EndP NetP LifeP SelfP.
From Verif Require Import SpecReq.
Require Import ZifyBool Permutation.

Lemma nth_upd {A} (l : list A) i v k : nth_error (upd l i v) k = if (k =? i)%nat then (if (k <? length l)%nat then Some v else None) else nth_error l k.
Proof.
  revert i k. induction l as [|x l IH]; intros [|i] [|k]; cbn [upd nth_error length]; try reflexivity.
  - destruct (S k =? S i)%nat; reflexivity.
  - rewrite IH. change (S k =? S i)%nat with (k =? i)%nat. change (S k <? S (length l))%nat with (k <? length l)%nat. reflexivity.
Qed.

(** ** One datagram at a node that listens *)
Lemma hear_frame (PS : PySet) w tr s j v b a f s' tr' r : server_at s j = Some v -> s_alive v = true -> s_obs v = [ONode] ->
  bytes_ok b -> (length b <= 1024)%nat -> denotes b f -> node_received w tr s (set_from (Some a) f) = (s', tr', r) ->
  deliver w tr s j (b, a) = (match r with Ok _ => s' | Err _ => kill j s' end, tr').
Proof.
  intros V A O Bo L D N. destruct (deliver_frame PS w tr s j (b, a) (set_from (Some a) f)) as (v' & V' & E).
  { split; [eauto|]. cbn [fst snd]. split; [exact L|]. split; [exact Bo|]. exists f. auto. }
  assert (v' = v) by congruence. subst v'. rewrite E, O. cbn [notify tell]. rewrite N. destruct r as [[]|e]; reflexivity.
Qed.
Lemma kill_shape i s : servers_of (kill i s) = servers_of s /\ open_ifs (kill i s) = open_ifs s /\ ln_objs (kill i s) = ln_objs s /\ ln_prof (kill i s) = ln_prof s.
Proof.
  unfold kill, servers_of, open_ifs. destruct (nth_error _ i) as [v|] eqn:E; [|repeat split].
  cbn [ln_mgr set_ln_mgr g_servers set_servers]. split; [apply upd_length|]. split; [|split; reflexivity].
  revert i E. induction (g_servers (ln_mgr s)) as [|x l IH]; intros [|i] E; cbn [nth_error] in E; try discriminate.
  - assert (x = v) by congruence. subst x. cbn [upd filter s_uni s_open]. destruct (s_uni v && s_open v); reflexivity.
  - cbn [upd filter]. destruct (s_uni x && s_open x); cbn [map]; now rewrite (IH i E).
Qed.
Lemma kill_obs i s j v : server_at (kill i s) j = Some v -> exists v0, server_at s j = Some v0 /\ s_obs v = s_obs v0.
Proof.
  unfold kill, server_at. destruct (nth_error (g_servers (ln_mgr s)) i) as [x|] eqn:E; [|eauto].
  cbn [ln_mgr set_ln_mgr g_servers set_servers]. rewrite nth_upd. destruct (Nat.eqb_spec j i) as [->|]; [|eauto].
  destruct (i <? _)%nat; [|discriminate]. intros H. exists x. split; [exact E|]. injection H as <-. reflexivity.
Qed.
Lemma kill_ready codes i s : ready codes s -> ready codes (kill i s).
Proof.
  intros (L & K & O). destruct (kill_shape i s) as (_ & E & Eo & Ep). split; [exact (linv_objs s _ Eo Ep L)|]. rewrite Eo, E. auto.
Qed.
Lemma listens_same s s' : g_servers (ln_mgr s') = g_servers (ln_mgr s) -> listens s -> listens s'.
Proof. unfold listens, open_ifs, server_at. intros ->. auto. Qed.

(** ** An answer to the search *)
Definition is_answer (l : list Z) (b : list Z) : Prop :=
  exists rsp, denotes b rsp /\ bytes_ok b /\ (length b <= 1024)%nat /\ m_ESV rsp = 0x72 /\ m_SEOJ rsp = 0x0EF001 /\ m_DEOJ rsp = 0x0EF001 /\
    m_props rsp = [mkprop 0xD6 (zlen l :: flat_map (be 3) l)].
Definition the_search (b : list Z) : Prop := exists t, 0 < t < 65536 /\ b = wire (set_TID t search_message).

Lemma search_short t : (length (wire (set_TID t search_message)) <= 1024)%nat.
Proof. rewrite wire_len. cbn. lia. Qed.

Lemma answer_length b rsp l m : parse_bytes new_msg b = (rsp, Ok true) -> b = wire m -> m_ESV rsp = 0x72 ->
  m_props rsp = [mkprop 0xD6 (zlen l :: flat_map (be 3) l)] -> zlen l <= 84 -> (length b <= 1024)%nat.
Proof.
  intros P -> E Pr L. rewrite <- (app_nil_r (wire m)), parse_wire, overlay_new in P. assert (rsp = carried m) by congruence. subst rsp.
  rewrite wire_len. unfold wire_body. cbn [m_ESV m_props carried] in *. rewrite E in *. change (two_blocks 0x72) with false in *. cbn iota in *.
  rewrite Pr. unfold wire_props. cbn [flat_map length]. rewrite app_nil_r. unfold wire_prop. cbn [length p_data].
  pose proof (be3_length l). unfold zlen in *. lia.
Qed.

Lemma device_hears (PS : PySet) w tr s codes ac j b s' tr' v : quiet w -> reliable w -> ready codes s -> the_search b ->
  server_at s j = Some v -> s_alive v = true -> s_obs v = [ONode] ->
  deliver w tr s j (b, ac) = (s', tr') ->
  ready codes s' /\ servers_of s' = servers_of s /\
  (forall j' v', server_at s' j' = Some v' -> exists v0, server_at s j' = Some v0 /\ s_obs v' = s_obs v0) /\ exists evs, tr' = tr ++ evs /\
  let l := device_codes codes in
  (zlen l <= 84 -> g_servers (ln_mgr s') = g_servers (ln_mgr s) /\ exists y, reach ac evs = [y] /\ is_answer l y) /\
  (85 <= zlen l -> reach ac evs = []).
Proof.
  intros Q R RD (t & Ht & Eb) V A O H. pose proof (search_frame t Ht) as Fr.
  assert (Hm : received_from ac (set_from (Some ac) (set_TID t search_message))) by (eexists; split; [exact Fr|reflexivity]).
  destruct (node_received w tr s (set_from (Some ac) (set_TID t search_message))) as [[s1 tr1] r] eqn:N.
  rewrite (hear_frame PS w tr s j v b ac (set_TID t search_message) s1 tr1 r V A O) in H; try exact N.
  2:{ rewrite Eb. apply wire_bytes_ok; apply Fr. }
  2:{ rewrite Eb. apply search_short. }
  2:{ split; [exact Fr|]. exists []. rewrite app_nil_r. exact Eb. }
  pose proof (node_keeps_servers PS w tr s ac _ s1 tr1 r Hm N) as G.
  destruct RD as (L & K & OI). destruct (linv_received PS w tr s ac _ s1 tr1 r Hm L N) as (L1 & K1 & O1).
  assert (RD1 : ready codes s1) by (split; [exact L1|]; split; [rewrite K1; exact K|rewrite O1; exact OI]).
  destruct (search_answer PS w tr s ac _ codes s1 tr1 r Q R (conj L (conj K OI)) Hm (conj eq_refl (conj eq_refl eq_refl)) N) as (evs & Et & A1 & A2).
  destruct (node_sends PS w tr s ac _ s1 tr1 r Hm N) as (evs' & Et' & Fo & _).
  destruct (node_received_only PS w tr s ac _ s1 tr1 r Hm N) as (evs2 & Et2 & (_ & _ & _ & Fm)).
  assert (evs' = evs) by (rewrite Et in Et'; apply app_inv_head in Et'; auto). subst evs'.
  assert (evs2 = evs) by (rewrite Et in Et2; apply app_inv_head in Et2; auto). subst evs2.
  assert (tr' = tr1) by (destruct r; congruence). subst tr'.
  split; [|split; [|split]].
  - destruct r as [[]|e]; [assert (s' = s1) by congruence; subst s'; exact RD1|]. assert (s' = kill j s1) by congruence. subst s'. apply kill_ready. exact RD1.
  - transitivity (servers_of s1); [|unfold servers_of; rewrite G; reflexivity].
    destruct r as [[]|e]; [congruence|]. assert (s' = kill j s1) by congruence. subst s'. apply kill_shape.
  - assert (G1 : forall j' v', server_at s1 j' = Some v' -> exists v0, server_at s j' = Some v0 /\ s_obs v' = s_obs v0) by (unfold server_at; rewrite G; eauto).
    intros j' v' X. destruct r as [[]|e]; [assert (s' = s1) by congruence; subst s'; exact (G1 j' v' X)|]. assert (s' = kill j s1) by congruence. subst s'.
    destruct (kill_obs j s1 j' v' X) as (v1 & X1 & ->). exact (G1 j' v1 X1).
  - exists evs. split; [exact Et|]. split.
    + intros Hl. destruct (A1 Hl) as (i & y & n & rsp & Bo & Sn & Ro & Pa & E1 & E2 & E3 & _ & E5). subst r. assert (s' = s1) by congruence. subst s'.
      split; [exact G|]. exists y. split.
      * apply (reach_one ac evs i y n Sn). rewrite Sn in Fo. apply Forall_inv in Fo. destruct Fo as (t0 & Fo).
        assert (y <> []). { intros ->. rewrite Sn in Fm. apply Forall_inv in Fm. destruct Fm as (_ & m & _ & X). symmetry in X. exact (wire_nonempty m X). }
        destruct (R t0 i y ac H0) as (n' & X & Y). rewrite X in Fo. injection Fo as ->. exact Y.
      * exists rsp. split; [exact (proj1 (parse_new_iff y rsp Bo) Pa)|]. split; [exact Bo|]. split; [|repeat split; auto].
        rewrite Sn in Fm. apply Forall_inv in Fm. destruct Fm as (_ & m & _ & X). cbn in X. exact (answer_length y rsp _ m Pa X E1 E5 Hl).
    + intros Hl. destruct (A2 Hl) as (Sn & _). unfold reach. rewrite Sn. reflexivity.
Qed.

Lemma controller_hears (PS : PySet) w tr s c l an b j v s' tr' : quiet w -> ln_ctl s = Some c -> is_answer l b ->
  zlen l <= 84 -> NoDup (0x0EF001 :: l) -> Forall (fun k => 0 <= k < 2 ^ 24) l ->
  server_at s j = Some v -> s_alive v = true -> s_obs v = [ONode] ->
  deliver w tr s j (b, an) = (s', tr') ->
  g_servers (ln_mgr s') = g_servers (ln_mgr s) /\ exists c', ln_ctl s' = Some c' /\
  dkeys (c_found c') = add_key (dkeys (c_found c)) (fst an) /\
  (forall k, k <> fst an -> sget k (c_found c') = sget k (c_found c)) /\
  exists nd, sget (fst an) (c_found c') = Some nd /\ depicts nd an l.
Proof.
  intros Q C (rsp & D & Bo & Lb & E1 & E2 & E3 & E5) Hl ND Rg V A O H. set (m := set_from (Some an) rsp).
  assert (Hr : received_from an m) by (exists rsp; split; [apply D|reflexivity]).
  destruct (node_received w tr s m) as [[s1 tr1] r] eqn:N.
  assert (AN : announces m = Some l).
  { unfold announces. cbn [m set_from m_ESV m_DEOJ]. rewrite E1, E3. 
    change ((0x72 =? 0x72) || (0x72 =? 0x73)) with true. change (0x0EF001 =? 0x0EF001) with true. cbn [andb].
    unfold carries_list. change (m_props m) with (m_props rsp). rewrite E5. cbn [list_property p_code p_data]. change ((0xD6 =? 0xD5) || (0xD6 =? 0xD6)) with true. cbn iota.
    apply L_C45_instance_list.
    - constructor; [pose proof (zlen_nonneg l); unfold byte_ok; lia|]. clear. unfold bytes_ok. induction l as [|y l IH]; [constructor|]. cbn [flat_map]. apply Forall_app. split; [apply be_ok|exact IH].
    - split; [exists []; now rewrite app_nil_r|exact Rg]. }
  assert (NR : is_request (m_ESV m) = false) by (cbn [m set_from m_ESV]; rewrite E1; reflexivity).
  rewrite (hear_frame PS w tr s j v b an rsp s1 tr1 r V A O Bo Lb D N) in H.
  assert (Ro : r = Ok tt).
  { destruct r as [[]|e]; [reflexivity|]. exfalso. pose proof (proj1 (response_result PS w tr s c an m s1 tr1 _ Q C Hr NR N e) eq_refl) as X.
    destruct (announces_profile m l AN) as (_ & DE & EL). unfold raises in X. destruct e; try contradiction.
    + destruct X as (_ & _ & X). congruence.
    + destruct X as [(_ & X)|(_ & X & _)]; congruence. }
  subst r. assert (s' = s1 /\ tr' = tr1) as (-> & ->) by (split; congruence). clear H.
  split; [exact (node_keeps_servers PS w tr s an m s1 tr1 _ Hr N)|].
  destruct (step_of PS w tr s c an m s1 tr1 _ Q C Hr N) as (c' & C' & _ & S). specialize (S NR).
  destruct (found_step PS w tr c an m c' tr1 _ Q Hr NR S) as (_ & FK & FO & FN). rewrite AN in FN, FK. destruct (FN _ eq_refl) as (nd & G & X).
  destruct (found_node_spec an l) as (FA & _ & FC & _). rewrite (firsts_id Z.eqb zeqb_eq _ ND) in FC.
  exists c'. split; [exact C'|]. split; [exact FK|]. split; [exact FO|]. exists nd. split; [exact G|].
  destruct X as [->|(_ & ->)]; [split; [exact FA|exact FC]|].
  destruct (rec_node_keeps m (found_node an l)) as (Y1 & Y2 & _). split; [rewrite Y1; exact FA|rewrite Y2; exact FC].
Qed.

(** ** The network *)
Lemma searches_app mail n k a e : searches mail n k (a ++ [e]) = (searches mail n k a + searches mail n k [e])%nat.
Proof. unfold searches. rewrite filter_app, app_length. reflexivity. Qed.
Lemma answered_app mail n nc k a e : answered mail n nc k (a ++ [e]) <->
  answered mail n nc k a \/ exists j i, e = GoAnswer k j i /\ (j < nc)%nat /\ (i < searches mail n k a)%nat.
Proof.
  split.
  - intros (p & j & i & q & E & H1 & H2). destruct (exists_last (l := GoAnswer k j i :: q)) as (q' & z & Z); [discriminate|].
    destruct q as [|y q].
    + right. apply app_inj_tail in E. destruct E as (-> & ->). eauto.
    + left. destruct q' as [|y' q']; [destruct q; discriminate|]. cbn in Z. injection Z as <- Z. exists p, j, i, q'. split; [|auto].
      rewrite Z in E. change (p ++ GoAnswer k j i :: q' ++ [z]) with (p ++ (GoAnswer k j i :: q') ++ [z]) in E. rewrite app_assoc in E. apply app_inj_tail in E. apply E.
  - intros [(p & j & i & q & -> & H)|(j & i & -> & H)].
    + exists p, j, i, (q ++ [e]). rewrite <- app_assoc. auto.
    + exists a, j, i, []. auto.
Qed.

Section Area.
Context {PS : PySet}.
Variables (wc : os) (ac : addr) (mail : list (list Z)) (devs : list site) (ls : list (list Z)) (nc : nat).
Definition small (l : list Z) : Prop := zlen l <= 84.
Definition dinv (a : list move) (k : nat) (d0 : site) (l : list Z) (d : site) : Prop :=
  t_os d = t_os d0 /\ t_addr d = t_addr d0 /\ servers_of (t_node d) = servers_of (t_node d0) /\ (t_from d <= length (t_tr d))%nat /\
  (exists codes, ready codes (t_node d) /\ device_codes codes = l) /\ (small l -> listens (t_node d)) /\
  (forall j v, server_at (t_node d) j = Some v -> s_obs v = [ONode]) /\
  Forall (is_answer l) (mailed ac d) /\
  length (mailed ac d) = if zlen l <=? 84 then searches (length mail) (servers_of (t_node d0)) k a else 0%nat.
Definition cinv (a : list move) (x : site) : Prop :=
  t_os x = wc /\ t_addr x = ac /\ servers_of (t_node x) = nc /\ listens (t_node x) /\
  exists c, ln_ctl (t_node x) = Some c /\ NoDup (dkeys (c_found c)) /\
  (forall ip nd, sget ip (c_found c) = Some nd -> exists k d l, nth_error devs k = Some d /\ nth_error ls k = Some l /\ small l /\
      answered (length mail) (servers_of (t_node d)) nc k a /\ ip = fst (t_addr d) /\ depicts nd (t_addr d) l) /\
  (forall k d l, nth_error devs k = Some d -> nth_error ls k = Some l -> small l ->
      answered (length mail) (servers_of (t_node d)) nc k a -> exists nd, sget (fst (t_addr d)) (c_found c) = Some nd).
Definition ainv (a : list move) (x : area) : Prop :=
  a_mail x = mail /\ cinv a (a_ctl x) /\ length (a_devs x) = length devs /\
  forall k d0 l, nth_error devs k = Some d0 -> nth_error ls k = Some l -> exists d, nth_error (a_devs x) k = Some d /\ dinv a k d0 l d.

Lemma dinv_other a e k d0 l d : searches (length mail) (servers_of (t_node d0)) k [e] = 0%nat -> dinv a k d0 l d -> dinv (a ++ [e]) k d0 l d.
Proof. intros E H. unfold dinv in *. rewrite searches_app, E, Nat.add_0_r. exact H. Qed.

Lemma mailed_more d evs s : (t_from d <= length (t_tr d))%nat ->
  mailed ac (mksite (t_os d) (t_addr d) s (t_tr d ++ evs) (t_from d)) = mailed ac d ++ reach ac evs.
Proof.
  intros L. unfold mailed. cbn [t_from t_tr]. rewrite skipn_app. replace (t_from d - length (t_tr d))%nat with 0%nat by lia.
  cbn [skipn]. unfold reach. rewrite sent_app, filter_app, map_app. reflexivity.
Qed.

Lemma device_step a k j i d0 l d b : hosts d0 l -> dinv a k d0 l d -> the_search b -> nth_error mail i = Some b ->
  dinv (a ++ [GoSearch k j i]) k d0 l (hears d j b ac).
Proof.
  intros Ho D Tb Mb. assert (Li : (i < length mail)%nat) by (apply nth_error_Some; rewrite Mb; discriminate).
  destruct Ho as (_ & _ & _ & Q & R & _). pose proof D as (Eo & Ea & Es & Lt & (codes & RD & DC) & Sm & Ob & Fa & Ln).
  unfold hears. destruct (deliver (t_os d) (t_tr d) (t_node d) j (b, ac)) as [s' tr'] eqn:H.
  destruct (server_at (t_node d) j) as [v|] eqn:V.
  2:{ assert (X : deliver (t_os d) (t_tr d) (t_node d) j (b, ac) = (t_node d, t_tr d)) by (apply kill_dead; rewrite V; exact I).
      assert (s' = t_node d /\ tr' = t_tr d) as (-> & ->) by (split; congruence). replace (mksite _ _ _ _ _) with d by (destruct d; reflexivity).
      apply dinv_other; [|exact D]. unfold searches. cbn [filter]. rewrite Nat.eqb_refl. cbn [andb].
      assert (Lj : (j <? servers_of (t_node d0))%nat = false). { apply Nat.ltb_ge. rewrite <- Es. apply nth_error_None. exact V. }
      rewrite Lj. reflexivity. }
  assert (Lj : (j <? servers_of (t_node d0))%nat = true). { apply Nat.ltb_lt. rewrite <- Es. apply nth_error_Some. unfold server_at in V. rewrite V. discriminate. }
  assert (S1 : searches (length mail) (servers_of (t_node d0)) k [GoSearch k j i] = 1%nat).
  { unfold searches. cbn [filter]. rewrite Nat.eqb_refl, Lj. cbn [andb]. replace (i <? length mail)%nat with true by (symmetry; apply Nat.ltb_lt; exact Li). reflexivity. }
  destruct (s_alive v) eqn:Al.
  2:{ assert (X : deliver (t_os d) (t_tr d) (t_node d) j (b, ac) = (t_node d, t_tr d)) by (apply kill_dead; rewrite V; exact Al).
      assert (s' = t_node d /\ tr' = t_tr d) as (-> & ->) by (split; congruence). replace (mksite _ _ _ _ _) with d by (destruct d; reflexivity).
      destruct (Z.leb_spec (zlen l) 84) as [B|B]; [exfalso; destruct (Sm B) as (_ & W); destruct (W j v V); congruence|].
      unfold dinv in *. replace (zlen l <=? 84) with false in * by lia. exact D. }
  rewrite Eo in H. destruct (device_hears PS (t_os d0) (t_tr d) (t_node d) codes ac j b s' tr' v Q R RD Tb V Al (Ob j v V) H) as (RD' & Es' & Ob' & evs & -> & A1 & A2).
  rewrite DC in A1, A2.
  unfold dinv. rewrite (mailed_more d evs s' Lt). cbn [t_os t_addr t_node t_tr t_from].
  split; [exact Eo|]. split; [exact Ea|]. split; [congruence|]. split; [rewrite app_length; lia|]. split; [eauto|].
  rewrite searches_app, S1, app_length, Ln.
  destruct (Z.leb_spec (zlen l) 84) as [B|B].
  - destruct (A1 B) as (G & y & Ry & Ay). rewrite Ry. split; [intros _; exact (listens_same _ _ G (Sm B))|]. split.
    + intros j' v'. unfold server_at. rewrite G. apply Ob.
    + split; [apply Forall_app; split; [exact Fa|constructor; [exact Ay|constructor]]|]. reflexivity.
  - rewrite (A2 ltac:(lia)), app_nil_r. split; [unfold small; lia|]. split; [|split; [exact Fa|reflexivity]].
    intros j' v' X. destruct (Ob' j' v' X) as (v0 & X0 & ->). exact (Ob j' v0 X0).
Qed.

Lemma controller_step a k j i d0 l d b x : nth_error devs k = Some d0 -> nth_error ls k = Some l -> NoDup (map (fun d => fst (t_addr d)) devs) ->
  quiet wc -> hosts d0 l -> NoDup (0x0EF001 :: l) -> dinv a k d0 l d -> cinv a x -> nth_error (mailed ac d) i = Some b ->
  cinv (a ++ [GoAnswer k j i]) (hears x j b (t_addr d)).
Proof.
  intros Kd Kl NDi Q (_ & Rg & _) ND (_ & Ea & _ & _ & _ & _ & _ & Fa & Ln) C Mb. pose proof C as (Eo & Ex & Es & Li & c & Cc & Nk & C1 & C2).
  assert (Lm : (i < length (mailed ac d))%nat) by (apply nth_error_Some; rewrite Mb; discriminate).
  assert (An : is_answer l b) by (rewrite Forall_forall in Fa; apply Fa; eapply nth_error_In; exact Mb).
  assert (Sm : small l). { unfold small. destruct (Z.leb_spec (zlen l) 84) as [B|B]; [exact B|]. rewrite Ln in Lm. lia. }
  assert (Li2 : (i < searches (length mail) (servers_of (t_node d0)) k a)%nat). { rewrite Ln in Lm. replace (zlen l <=? 84) with true in Lm by (unfold small in Sm; lia). exact Lm. }
  unfold hears. destruct (deliver (t_os x) (t_tr x) (t_node x) j (b, t_addr d)) as [s' tr'] eqn:H.
  destruct (server_at (t_node x) j) as [v|] eqn:V.
  2:{ assert (X : deliver (t_os x) (t_tr x) (t_node x) j (b, t_addr d) = (t_node x, t_tr x)) by (apply kill_dead; rewrite V; exact I).
      assert (s' = t_node x /\ tr' = t_tr x) as (-> & ->) by (split; congruence). replace (mksite _ _ _ _ _) with x by (destruct x; reflexivity).
      assert (Lj : ~ (j < nc)%nat). { rewrite <- Es. intros Z. apply nth_error_Some in Z. apply Z. exact V. }
      split; [exact Eo|]. split; [exact Ex|]. split; [exact Es|]. split; [exact Li|]. exists c. split; [exact Cc|]. split; [exact Nk|]. split.
      - intros ip nd Hn. destruct (C1 ip nd Hn) as (k1 & d1 & l1 & A1 & A2 & A3 & A4 & A5). exists k1, d1, l1. split; [exact A1|]. split; [exact A2|]. split; [exact A3|]. split; [|exact A5]. apply answered_app. left. exact A4.
      - intros k1 d1 l1 A1 A2 A3 A4. apply answered_app in A4. destruct A4 as [A4|(j1 & i1 & E & A4 & _)]; [exact (C2 k1 d1 l1 A1 A2 A3 A4)|]. injection E as <- <- <-. contradiction. }
  assert (Lj : (j < nc)%nat). { rewrite <- Es. apply nth_error_Some. unfold server_at in V. rewrite V. discriminate. }
  destruct (proj2 Li j v V) as (Al & Ob). rewrite Eo in H. 
  destruct (controller_hears PS wc (t_tr x) (t_node x) c l (t_addr d) b j v s' tr' Q Cc An Sm ND Rg V Al Ob H) as (G & c' & Cc' & Fk & Fo & nd & Fn & Dn).
  rewrite Ea in *.
  assert (An1 : answered (length mail) (servers_of (t_node d0)) nc k (a ++ [GoAnswer k j i])) by (apply answered_app; right; eauto).
  split; [exact Eo|]. split; [exact Ex|]. cbn [t_node]. split; [unfold servers_of in *; rewrite G; exact Es|]. split; [exact (listens_same _ _ G Li)|].
  exists c'. split; [exact Cc'|]. split; [|split].
  - rewrite Fk. unfold add_key. destruct (existsb _ _) eqn:X; [exact Nk|]. apply (Permutation_NoDup (Permutation_cons_append _ _)). constructor; [|exact Nk]. intros I.
    assert (existsb (String.eqb (fst (t_addr d0))) (dkeys (c_found c)) = true); [|congruence]. apply existsb_exists. exists (fst (t_addr d0)). split; [exact I|apply String.eqb_refl].
  - intros ip nd1 Hn. destruct (string_dec ip (fst (t_addr d0))) as [->|Ni].
    + exists k, d0, l. split; [exact Kd|]. split; [exact Kl|]. split; [exact Sm|]. split; [exact An1|]. split; [reflexivity|]. assert (nd1 = nd) by congruence. subst nd1. exact Dn.
    + rewrite (Fo ip Ni) in Hn. destruct (C1 ip nd1 Hn) as (k1 & d1 & l1 & A1 & A2 & A3 & A4 & A5). exists k1, d1, l1. split; [exact A1|]. split; [exact A2|]. split; [exact A3|]. split; [|exact A5]. apply answered_app. left. exact A4.
  - intros k1 d1 l1 A1 A2 A3 A4. destruct (string_dec (fst (t_addr d1)) (fst (t_addr d0))) as [E|Ni]; [rewrite E; eauto|]. rewrite (Fo _ Ni).
    apply answered_app in A4. destruct A4 as [A4|(j1 & i1 & E & _)]; [exact (C2 k1 d1 l1 A1 A2 A3 A4)|]. injection E as <- <- <-. congruence.
Qed.

Hypothesis (Qc : quiet wc) (Hmail : Forall the_search mail) (Hd : Forall2 hosts devs ls) (Hip : NoDup (map (fun d => fst (t_addr d)) devs)).
Lemma hosted k d : nth_error devs k = Some d -> exists l, nth_error ls k = Some l /\ hosts d l.
Proof.
  revert k. induction Hd as [|d1 l1 ds l2 H F IH]; intros [|k] E; cbn [nth_error] in *; try discriminate.
  - exists l1. split; [reflexivity|]. congruence.
  - inversion Hip; subst. apply IH; assumption.
Qed.
Lemma hosts_ready d l : hosts d l -> exists codes, ready codes (t_node d) /\ device_codes codes = l /\ NoDup (0x0EF001 :: l).
Proof.
  intros ((c & r & s0 & w & added & N & T & El) & _ & (O & _) & _). destruct (self_new PS c r s0 N) as (I0 & K0).
  destruct (self_turns PS r w _ _ _ T I0 K0) as (I & K). cbn [fst] in *. exists (firsts Z.eqb (NP :: added)).
  assert (Dv : device_codes (firsts Z.eqb (NP :: added)) = l).
  { rewrite El. cbn [firsts]. unfold device_codes at 1. cbn [filter is_profile_code]. change (negb (is_profile_code NP)) with false. cbn iota.
    fold (device_codes (filter (fun b => negb (NP =? b)) (firsts Z.eqb added))). clear. induction (firsts Z.eqb added) as [|k t IH]; [reflexivity|]. cbn [filter].
    destruct (Z.eqb_spec NP k) as [<-|Hk]; cbn [negb]; unfold device_codes in *; cbn [filter]; [exact IH|].
    destruct (negb (is_profile_code k)); [now f_equal|exact IH]. }
  split; [|split; [exact Dv|]].
  - split; [apply I|]. split; [exact K|]. destruct (open_ifs (t_node d)) as [|i ifs]; [contradiction|]. eauto.
  - constructor.
    + rewrite <- Dv. unfold device_codes. rewrite filter_In. intros (_ & X). discriminate.
    + rewrite <- Dv. unfold device_codes. apply NoDup_filter. apply (firsts_nodup Z.eqb zeqb_eq).
Qed.

Lemma cinv_same a e x : (forall k d l, nth_error devs k = Some d -> nth_error ls k = Some l -> small l -> forall j i, e = GoAnswer k j i -> (j < nc)%nat -> (i < searches (length mail) (servers_of (t_node d)) k a)%nat -> answered (length mail) (servers_of (t_node d)) nc k a) ->
  cinv a x -> cinv (a ++ [e]) x.
Proof.
  intros No (Eo & Ex & Es & Li & c & Cc & Nk & C1 & C2). split; [exact Eo|]. split; [exact Ex|]. split; [exact Es|]. split; [exact Li|]. exists c. split; [exact Cc|]. split; [exact Nk|]. split.
  - intros ip nd Hn. destruct (C1 ip nd Hn) as (k1 & d1 & l1 & A1 & A2 & A3 & A4 & A5). exists k1, d1, l1. split; [exact A1|]. split; [exact A2|]. split; [exact A3|]. split; [|exact A5]. apply answered_app. left. exact A4.
  - intros k1 d1 l1 A1 A2 A3 A4. apply answered_app in A4. destruct A4 as [A4|(j1 & i1 & E & A4 & A5)]; [exact (C2 k1 d1 l1 A1 A2 A3 A4)|]. exact (C2 k1 d1 l1 A1 A2 A3 (No k1 d1 l1 A1 A2 A3 j1 i1 E A4 A5)).
Qed.

Lemma area_inv a e x : ainv a x -> ainv (a ++ [e]) (area_step x e).
Proof.
  intros (M & C & L & D). destruct e as [k j i|k j i].
  - assert (C' : cinv (a ++ [GoSearch k j i]) (a_ctl x)) by (apply cinv_same; [discriminate|exact C]).
    assert (K : forall k0 d0 l d, k0 <> k -> dinv a k0 d0 l d -> dinv (a ++ [GoSearch k j i]) k0 d0 l d).
    { intros k0 d0 l d Nk. apply dinv_other. unfold searches. cbn [filter]. replace (k =? k0)%nat with false by (symmetry; apply Nat.eqb_neq; congruence). reflexivity. }
    cbn [area_step]. destruct (nth_error (a_devs x) k) as [d|] eqn:Kd.
    2:{ split; [exact M|]. split; [exact C'|]. split; [exact L|]. intros k0 d0 l E1 E2. destruct (D k0 d0 l E1 E2) as (d & Ed & Dd). exists d. split; [exact Ed|]. apply K; [congruence|exact Dd]. }
    destruct (nth_error (a_mail x) i) as [b|] eqn:Mb; rewrite M in Mb.
    2:{ split; [exact M|]. split; [exact C'|]. split; [exact L|]. intros k0 d0 l E1 E2. destruct (D k0 d0 l E1 E2) as (d1 & Ed & Dd). exists d1. split; [exact Ed|].
        apply dinv_other; [|exact Dd]. unfold searches. cbn [filter]. replace (i <? length mail)%nat with false by (symmetry; apply Nat.ltb_ge, nth_error_None; exact Mb). rewrite andb_false_r. reflexivity. }
    split; [exact M|]. split; [exact C'|]. cbn [a_devs a_ctl]. split; [rewrite upd_length; exact L|]. intros k0 d0 l E1 E2. rewrite nth_upd. destruct (D k0 d0 l E1 E2) as (d1 & Ed & Dd).
    destruct (Nat.eqb_spec k0 k) as [->|Nk].
    + assert (d1 = d) by congruence. subst d1. exists (hears d j b (t_addr (a_ctl x))). split.
      * replace (k <? length (a_devs x))%nat with true; [reflexivity|]. symmetry. apply Nat.ltb_lt, nth_error_Some. rewrite Kd. discriminate.
      * rewrite (proj1 (proj2 C)). destruct (hosted k d0 E1) as (l1 & El & Ho). assert (l1 = l) by congruence. subst l1.
        apply device_step; [exact Ho|exact Dd| |exact Mb]. rewrite Forall_forall in Hmail. apply Hmail. eapply nth_error_In. exact Mb.
    + exists d1. split; [exact Ed|]. apply K; assumption.
  - assert (K : forall k0 d0 l, nth_error devs k0 = Some d0 -> nth_error ls k0 = Some l -> exists d, nth_error (a_devs x) k0 = Some d /\ dinv (a ++ [GoAnswer k j i]) k0 d0 l d).
    { intros k0 d0 l E1 E2. destruct (D k0 d0 l E1 E2) as (d & Ed & Dd). exists d. split; [exact Ed|]. apply dinv_other; [reflexivity|exact Dd]. }
    cbn [area_step]. destruct (nth_error (a_devs x) k) as [d|] eqn:Kd.
    2:{ split; [exact M|]. split; [|split; [exact L|exact K]]. apply cinv_same; [|exact C]. intros k1 d1 l1 E1 E2 _ j1 i1 E _ _. injection E as <- <- <-. destruct (D k d1 l1 E1 E2) as (d & Ed & _). congruence. }
    assert (exists d0, nth_error devs k = Some d0) as (d0 & E1).
    { destruct (nth_error devs k) as [d0|] eqn:E; [eauto|]. exfalso. apply nth_error_None in E. rewrite <- L in E. apply nth_error_None in E. congruence. }
    destruct (hosted k d0 E1) as (l & E2 & Ho). destruct (D k d0 l E1 E2) as (d' & Ed & Dd). assert (d' = d) by congruence. subst d'.
    rewrite (proj1 (proj2 C)). destruct (nth_error (mailed ac d) i) as [b|] eqn:Mb.
    + split; [exact M|]. split; [|split; [exact L|exact K]]. cbn [a_ctl]. destruct (hosts_ready d0 l Ho) as (codes & _ & _ & ND).
      exact (controller_step a k j i d0 l d b (a_ctl x) E1 E2 Hip Qc Ho ND Dd C Mb).
    + split; [exact M|]. split; [|split; [exact L|exact K]]. apply cinv_same; [|exact C]. intros k1 d1 l1 F1 F2 Sm j1 i1 E _ Hi. injection E as <- <- <-. exfalso.
      assert (d1 = d0 /\ l1 = l) as (-> & ->) by (split; congruence). destruct Dd as (_ & _ & _ & _ & _ & _ & _ & _ & Ln). apply nth_error_None in Mb. rewrite Ln in Mb.
      replace (zlen l <=? 84) with true in Mb by (unfold small in Sm; lia). lia.
Qed.
Lemma area_inv_run sched : forall x, ainv [] x -> ainv sched (area_run sched x).
Proof.
  induction sched as [|e a IH] using rev_ind; intros x H; [exact H|]. unfold area_run. rewrite fold_left_app. cbn [fold_left]. apply area_inv. apply IH. exact H.
Qed.
End Area.

Lemma search_mail w tr s c s' tr' r : ln_ctl s = Some c -> 0 <= g_tid (ln_mgr s) <= 65535 -> ctl_search w tr s = (s', tr', r) ->
  Forall the_search (reach MULTICAST (since tr tr')) /\ g_servers (ln_mgr s') = g_servers (ln_mgr s) /\ ln_ctl s' = Some c /\
  (reliable w -> length (reach MULTICAST (since tr tr')) = length (open_ifs s)).
Proof.
  intros C T H. destruct (search_bytes w tr s c C) as (g' & t & snds & r1 & E & Cs & Fo & G & Tt). specialize (Tt T). rewrite H in E. injection E as -> -> _.
  assert (Ht : 0 < t < 65536) by (subst t; pose proof (Z.mod_pos_bound (g_tid (ln_mgr s)) 65535); lia).
  rewrite since_app. unfold reach. rewrite sent_evs. split; [|split; [exact G|split; [exact C|]]].
  - apply Forall_forall. intros b I. apply in_map_iff in I as (x & <- & I). apply filter_In in I as (I & _). destruct (AnswerP.casts_all _ _ _ _ Cs x I) as (-> & _). exists t. auto.
  - intros R. clear - Cs Fo R. pose proof (wire_nonempty (set_TID t search_message)) as NE. remember (wire (set_TID t search_message)) as b eqn:Eb. clear Eb. revert Fo.
    induction Cs as [|i ifs e|i ifs n l Cs IH]; intros Fo; [reflexivity|..].
    + exfalso. apply Forall_inv in Fo. destruct Fo as (t0 & X). destruct (R t0 i b MULTICAST NE) as (n & Y & _). congruence.
    + inversion Fo as [|y q F1 F2]; subst. destruct F1 as (t0 & X). destruct (R t0 i b MULTICAST NE) as (n' & Y & Z). rewrite Y in X. injection X as ->.
      cbn [filter]. unfold delivered at 1. cbn [snd fst]. rewrite addr_eqb_refl. replace (0 <? n') with true by lia. cbn [andb map length]. f_equal. apply IH. exact F2.
Qed.

Section Final.
Context {PS : PySet}.
Variables (wc : os) (ac : addr) (sc : lnode) (c : ctl) (trc : trace) (sc1 : lnode) (trc1 : trace) (rc : res bool) (devs : list site) (ls : list (list Z)).
Hypothesis (Qc : quiet wc) (Cc : ln_ctl sc = Some c) (Fc : c_found c = []) (Tc : 0 <= g_tid (ln_mgr sc) <= 65535) (Lc : listens sc)
  (Se : ctl_search wc trc sc = (sc1, trc1, rc)) (Hip : NoDup (map (fun d => fst (t_addr d)) devs)) (Hd : Forall2 hosts devs ls).
Let mail := reach MULTICAST (since trc trc1).
Let x0 := mkarea (mksite wc ac sc1 trc1 (length trc1)) mail devs.

Lemma area_start : ainv wc ac mail devs ls (servers_of sc) [] x0.
Proof.
  destruct (search_mail wc trc sc c sc1 trc1 rc Cc Tc Se) as (_ & G & C1 & _).
  split; [reflexivity|]. split; [|split; [reflexivity|]].
  - cbn [a_ctl x0]. split; [reflexivity|]. split; [reflexivity|]. cbn [t_node]. split; [unfold servers_of; rewrite G; reflexivity|]. split; [exact (listens_same _ _ G Lc)|].
    exists c. split; [exact C1|]. rewrite Fc. split; [constructor|]. split; [discriminate|]. intros k d l _ _ _ (p & j & i & q & E & _). destruct p; discriminate.
  - intros k d0 l E1 E2. exists d0. split; [exact E1|]. assert (Ho : hosts d0 l).
    { destruct (hosted devs ls Hd Hip k d0 E1) as (l1 & El & Ho). assert (l1 = l) by congruence. subst l1. exact Ho. }
    destruct (hosts_ready d0 l Ho) as (codes & RD & DC & _). destruct Ho as (_ & _ & Li & _ & _ & Fr).
    split; [reflexivity|]. split; [reflexivity|]. split; [reflexivity|]. split; [lia|]. split; [eauto|]. split; [intros _; exact Li|]. split; [intros j v V; exact (proj2 (proj2 Li j v V))|].
    unfold mailed. rewrite Fr, skipn_all. cbn. split; [constructor|]. destruct (zlen l <=? 84); reflexivity.
Qed.
Lemma area_end sched : ainv wc ac mail devs ls (servers_of sc) sched (area_run sched x0).
Proof.
  apply area_inv_run; [exact Qc| |exact Hd|exact Hip|exact area_start]. apply (search_mail wc trc sc c sc1 trc1 rc Cc Tc Se).
Qed.
End Final.

Lemma depicts_ip nd a l : depicts nd a l -> node_ip nd = fst a.
Proof. intros (E & _). unfold node_ip. rewrite E. reflexivity. Qed.

Lemma L_C79_found_partial : forall (PS : PySet) wc ac sc c trc sc1 trc1 rc devs ls sched,
  quiet wc -> ln_ctl sc = Some c -> c_found c = [] -> 0 <= g_tid (ln_mgr sc) <= 65535 -> listens sc ->
  (* a controller that knows no node searches *)
  ctl_search wc trc sc = (sc1, trc1, rc) ->
  (* on a network of nodes with different addresses *)
  NoDup (map (fun d => fst (t_addr d)) devs) -> Forall2 hosts devs ls ->
  let mail := reach ("224.0.23.0"%string, 3610) (since trc trc1) in
  (* then, whatever the network delivers *)
  let x := area_run sched (mkarea (mksite wc ac sc1 trc1 (length trc1)) mail devs) in
  let answered k d := answered (length mail) (servers_of (t_node d)) (servers_of sc) k sched in
  exists c', ln_ctl (t_node (a_ctl x)) = Some c' /\ listens (t_node (a_ctl x)) /\
  NoDup (map node_ip (ctl_nodes c')) /\
  (* the controller has found only nodes of the network whose answers it has heard, as they are *)
  (forall nd, In nd (ctl_nodes c') -> exists k d l, nth_error devs k = Some d /\ nth_error ls k = Some l /\
     zlen l <= 84 /\ answered k d /\ depicts nd (t_addr d) l) /\
  (* and all of these with up to 84 devices *)
  (forall k d l, nth_error devs k = Some d -> nth_error ls k = Some l -> zlen l <= 84 -> answered k d ->
     exists nd, In nd (ctl_nodes c') /\ depicts nd (t_addr d) l /\
     forall w tr, get_node w tr c' (GATup (fst (t_addr d))) = Ok (Some nd)).
Proof.
  intros PS wc ac sc c trc sc1 trc1 rc devs ls sched Qc Cc Fc Tc Lc Se Hip Hd mail x ans.
  destruct (area_end wc ac sc c trc sc1 trc1 rc devs ls Qc Cc Fc Tc Lc Se Hip Hd sched) as (_ & (_ & _ & _ & Li & c' & C' & Nk & C1 & C2) & _ & _). fold mail x in Li, C', C1, C2.
  exists c'. split; [exact C'|]. split; [exact Li|].
  assert (V : forall ip nd, In (ip, nd) (c_found c') -> exists k d l, nth_error devs k = Some d /\ nth_error ls k = Some l /\ small l /\ ans k d /\ ip = fst (t_addr d) /\ depicts nd (t_addr d) l).
  { intros ip nd I. apply C1. apply (in_dget String.eqb seqb_eq); assumption. }
  split; [|split].
  - unfold ctl_nodes, dvals. rewrite map_map. replace (map (fun y => node_ip (snd y)) (c_found c')) with (dkeys (c_found c')); [exact Nk|].
    unfold dkeys. apply map_ext_in. intros (ip, nd) I. destruct (V ip nd I) as (k & d & l & _ & _ & _ & _ & -> & D). symmetry. exact (depicts_ip nd _ l D).
  - intros nd I. unfold ctl_nodes, dvals in I. apply in_map_iff in I as ((ip, n1) & <- & I). destruct (V ip n1 I) as (k & d & l & A1 & A2 & A3 & A4 & _ & A5). exists k, d, l. auto.
  - intros k d l A1 A2 A3 A4. destruct (C2 k d l A1 A2 A3 A4) as (nd & G). exists nd. destruct (C1 _ _ G) as (k1 & d1 & l1 & B1 & B2 & B3 & B4 & B5 & B6).
    split; [apply in_map_iff; exists (fst (t_addr d), nd); split; [reflexivity|]; exact (dget_in String.eqb seqb_eq _ _ _ G)|].
    assert (k1 = k).
    { assert (Lk : (k < length (map (fun d => fst (t_addr d)) devs))%nat) by (rewrite map_length; apply nth_error_Some; congruence).
      apply (proj1 (NoDup_nth_error _) Hip k1 k); [rewrite map_length; apply nth_error_Some; congruence|].
      rewrite !nth_error_map, A1, B1. cbn [option_map]. congruence. }
    subst k1. assert (d1 = d /\ l1 = l) as (-> & ->) by (split; congruence). split; [exact B6|]. intros w tr. rewrite get_node_tup, G. reflexivity.
Qed.

(** The search itself goes out once on each interface. *)
Lemma L_C79_sent : forall w tr s c s' tr' r, ln_ctl s = Some c -> 0 <= g_tid (ln_mgr s) <= 65535 -> reliable w -> ctl_search w tr s = (s', tr', r) ->
  length (reach ("224.0.23.0"%string, 3610) (since tr tr')) = length (open_ifs s).
Proof. intros w tr s c s' tr' r C T R H. apply (search_mail w tr s c s' tr' r C T H). exact R. Qed.

(** Finding: a node with 85 devices or more is never found. *)
Lemma L_C79_large_refuted : forall (PS : PySet) wc ac sc c trc sc1 trc1 rc devs ls sched,
  quiet wc -> ln_ctl sc = Some c -> c_found c = [] -> 0 <= g_tid (ln_mgr sc) <= 65535 -> listens sc ->
  ctl_search wc trc sc = (sc1, trc1, rc) ->
  NoDup (map (fun d => fst (t_addr d)) devs) -> Forall2 hosts devs ls ->
  let mail := reach ("224.0.23.0"%string, 3610) (since trc trc1) in
  let x := area_run sched (mkarea (mksite wc ac sc1 trc1 (length trc1)) mail devs) in
  forall k d l, nth_error devs k = Some d -> nth_error ls k = Some l -> 85 <= zlen l ->
  exists c' d', ln_ctl (t_node (a_ctl x)) = Some c' /\ nth_error (a_devs x) k = Some d' /\ mailed ac d' = [] /\
  forall w tr, get_node w tr c' (GATup (fst (t_addr d))) = Ok None.
Proof.
  intros PS wc ac sc c trc sc1 trc1 rc devs ls sched Qc Cc Fc Tc Lc Se Hip Hd mail x k d l A1 A2 Hl.
  destruct (area_end wc ac sc c trc sc1 trc1 rc devs ls Qc Cc Fc Tc Lc Se Hip Hd sched) as (_ & (_ & _ & _ & Li & c' & C' & Nk & C1 & C2) & _ & D). fold mail x in Li, C', C1, C2, D.
  destruct (D k d l A1 A2) as (d' & Ed & _ & _ & _ & _ & _ & _ & _ & _ & Ln). exists c', d'. split; [exact C'|]. split; [exact Ed|]. split.
  - replace (zlen l <=? 84) with false in Ln by lia. destruct (mailed ac d'); [reflexivity|discriminate].
  - intros w tr. rewrite get_node_tup. destruct (sget (fst (t_addr d)) (c_found c')) as [nd|] eqn:G; [exfalso|reflexivity].
    destruct (C1 _ _ G) as (k1 & d1 & l1 & B1 & B2 & B3 & B4 & B5 & B6).
    assert (k1 = k).
    { apply (proj1 (NoDup_nth_error _) Hip k1 k); [rewrite map_length; apply nth_error_Some; congruence|].
      rewrite !nth_error_map, A1, B1. cbn [option_map]. congruence. }
    subst k1. assert (l1 = l) by congruence. subst l1. unfold small in B3. lia.
Qed.
