(** Lemmas for C124. *)
From Verif Require Import PyBase BytesM EsvM MsgM PropM ObjM DbData DbM NodeM LocalM CtrlM
  SpecWire SpecObj SpecReq SpecDb SpecNode SpecProf SpecLocal SpecSrv SpecCtrl SpecEnd SpecLife SpecSelf SpecDisc SpecNews
  DictP BytesP WireP CodecP ObjP MapP ReqP DbP NodeP ProfP LocalP AnswerP SrvP CtrlP EndP NetP LifeP SelfP DiscP.
From Verif Require Import SpecReq.
Require Import ZifyBool.

(** ** What is sent *)
Lemma news_encodable code deoj ps : news_ok code deoj ps -> encodable (news code deoj ps).
Proof. intros (_ & _ & F & _). split; [unfold byte_ok; cbn; lia|exact F]. Qed.
Lemma news_frame s code deoj ps : news_ok code deoj ps -> frame_msg (as_sent s code deoj ps).
Proof.
  intros (A & B & F & D & _). pose proof (next_tid_range s) as T. apply frame_one; first [assumption|exact T|unfold byte_ok; lia|reflexivity|idtac].
Qed.
Lemma news_mail w tr s code deoj ps s' tr' m' r : ln_ctl s = None -> 0 <= g_tid (ln_mgr s) <= 65535 -> news_ok code deoj ps ->
  local_announce w tr s (news code deoj ps) = (s', tr', m', r) ->
  Forall (fun b => b = wire (as_sent s code deoj ps)) (reach MULTICAST (since tr tr')) /\ ln_objs s' = ln_objs s /\
  (reliable w -> length (reach MULTICAST (since tr tr')) = length (open_ifs s)).
Proof.
  intros C T Ok H. pose proof (news_encodable _ _ _ Ok) as En. destruct (local_announce_ok w tr s (news code deoj ps)) as (g' & t & St & G & X & _). destruct (X En) as (snds & m1 & r1 & E & (Cs & Fo) & _). clear X.
  rewrite H in E. injection E as -> -> _ _. unfold stamped in St. cbn in St.
  destruct (next_TID_mod (ln_mgr s) T) as (N1 & _). rewrite <- St in N1. cbn [fst snd] in N1. change (t = next_tid s) in N1.
  assert (W : set_TID t (set_SEOJ (source s (news code deoj ps)) (news code deoj ps)) = as_sent s code deoj ps).
  { unfold source. rewrite C. rewrite N1. reflexivity. }
  rewrite W in Cs.
  rewrite since_app. unfold reach. rewrite sent_evs. split; [|split; [reflexivity|]].
  - apply Forall_forall. intros b I. apply in_map_iff in I as (x & <- & I). apply filter_In in I as (I & _). destruct (AnswerP.casts_all _ _ _ _ Cs x I) as (-> & _). reflexivity.
  - intros R. clear - Cs Fo R. pose proof (wire_nonempty (as_sent s code deoj ps)) as NE. remember (wire (as_sent s code deoj ps)) as b eqn:Eb. clear Eb. revert Fo.
    induction Cs as [|i ifs e|i ifs n l Cs IH]; intros Fo; [reflexivity|..].
    + exfalso. apply Forall_inv in Fo. destruct Fo as (t0 & X). destruct (R t0 i b MULTICAST NE) as (n & Y & _). congruence.
    + inversion Fo as [|y q F1 F2]; subst. destruct F1 as (t0 & X). destruct (R t0 i b MULTICAST NE) as (n' & Y & Z). rewrite Y in X. injection X as ->.
      cbn [filter]. unfold delivered at 1. cbn [snd fst]. rewrite addr_eqb_refl. replace (0 <? n') with true by lia. cbn [andb map length]. f_equal. apply IH. exact F2.
Qed.
Lemma L_C124_sent : forall w tr s code deoj ps s' tr' m' r, ln_ctl s = None -> 0 <= g_tid (ln_mgr s) <= 65535 -> news_ok code deoj ps ->
  local_announce w tr s (news code deoj ps) = (s', tr', m', r) ->
  (forall b, In b (reach ("224.0.23.0"%string, 3610) (since tr tr')) -> b = wire (as_sent s code deoj ps)) /\
  (reliable w -> length (reach ("224.0.23.0"%string, 3610) (since tr tr')) = length (open_ifs s)) /\ ln_objs s' = ln_objs s.
Proof.
  intros w tr s code deoj ps s' tr' m' r C T Ok H. destruct (news_mail w tr s code deoj ps s' tr' m' r C T Ok H) as (F & O & L). rewrite Forall_forall in F. auto.
Qed.

(** ** The nodes are independent *)
Definition parts (k : nat) (mail : list (list Z)) (sched : list (nat * nat * nat)) : list (nat * list Z) :=
  flat_map (fun '(k', j, i) => if (k' =? k)%nat then match nth_error mail i with Some b => [(j, b)] | None => [] end else []) sched.
Lemma net_at (PS : PySet) a mail k : forall sched sites d0, nth_error sites k = Some d0 ->
  nth_error (net_run a mail sched sites) k = Some (fold_left (fun d e => hears d (fst e) (snd e) a) (parts k mail sched) d0).
Proof.
  induction sched as [|[[k' j] i] sched IH]; intros sites d0 H; [exact H|]. unfold net_run, parts in *. cbn [fold_left net_step flat_map]. rewrite fold_left_app.
  destruct (Nat.eqb_spec k' k) as [->|N].
  - rewrite H. destruct (nth_error mail i) as [b|]; cbn [fold_left]; [|now apply IH]. apply IH. rewrite DiscP.nth_upd, Nat.eqb_refl.
    replace (k <? length sites)%nat with true; [reflexivity|]. symmetry. apply Nat.ltb_lt. apply nth_error_Some. congruence.
  - cbn [fold_left]. apply IH. destruct (nth_error sites k') as [d|]; [|exact H]. destruct (nth_error mail i) as [b|]; [|exact H].
    rewrite DiscP.nth_upd. destruct (Nat.eqb_spec k k'); [congruence|exact H].
Qed.
Lemma brought_parts mail n k sched : brought (length mail) n k sched = length (filter (fun e => (fst e <? n)%nat) (parts k mail sched)).
Proof.
  unfold brought, parts. induction sched as [|[[k' j] i] sched IH]; [reflexivity|]. cbn [filter flat_map]. rewrite filter_app, app_length, <- IH. clear IH.
  destruct (k' =? k)%nat; cbn [andb]; [|reflexivity]. destruct (Nat.ltb_spec i (length mail)) as [L|L].
  - destruct (nth_error mail i) as [b|] eqn:E; [|apply nth_error_None in E; lia]. cbn [filter fst]. rewrite andb_true_r. destruct (j <? n)%nat; reflexivity.
  - replace (nth_error mail i) with (@None (list Z)) by (symmetry; now apply nth_error_None). rewrite andb_false_r. reflexivity.
Qed.
Lemma parts_from k mail sched P : Forall P mail -> Forall (fun e => P (snd e)) (parts k mail sched).
Proof.
  intros F. unfold parts. induction sched as [|[[k' j] i] sched IH]; [constructor|]. cbn [flat_map]. apply Forall_app. split; [|exact IH].
  destruct (k' =? k)%nat; [|constructor]. destruct (nth_error mail i) as [b|] eqn:E; [|constructor]. constructor; [|constructor]. rewrite Forall_forall in F. apply F. eapply nth_error_In; eauto.
Qed.
(** ** One datagram at a controller *)
Lemma unlisted_none s code ps a : unlisted ps -> announces (set_from (Some a) (as_sent s code 0x0EF001 ps)) = None /\ empty_list (set_from (Some a) (as_sent s code 0x0EF001 ps)) = false.
Proof.
  intros P. unfold announces, empty_list, carries_list, list_property. cbn [as_sent set_from m_ESV m_DEOJ m_props]. cbn [Z.eqb Pos.eqb orb andb].
  destruct ps as [|p ps]; [auto|]. cbn in P. replace (p_code p =? 0xD5) with false by lia. replace (p_code p =? 0xD6) with false by lia. auto.
Qed.
Lemma news_denotes s code deoj ps : news_ok code deoj ps -> denotes (wire (as_sent s code deoj ps)) (as_sent s code deoj ps) /\ bytes_ok (wire (as_sent s code deoj ps)) /\
  (length (wire (as_sent s code deoj ps)) <= 1024)%nat.
Proof.
  intros Ok. pose proof (news_frame s _ _ _ Ok) as F. split; [split; [exact F|exists []; now rewrite app_nil_r]|]. split; [apply wire_bytes_ok; apply F|].
  destruct Ok as (_ & _ & _ & _ & L). exact L.
Qed.
(** A server without number: nothing happens. *)
Lemma hears_none (PS : PySet) d j b a : server_at (t_node d) j = None -> hears d j b a = d.
Proof. intros E. unfold hears. rewrite kill_dead by now rewrite E. destruct d; reflexivity. Qed.
Lemma hears_one (PS : PySet) d j v s code deoj ps a s' tr' r : server_at (t_node d) j = Some v -> listens (t_node d) -> news_ok code deoj ps ->
  node_received (t_os d) (t_tr d) (t_node d) (set_from (Some a) (as_sent s code deoj ps)) = (s', tr', r) ->
  hears d j (wire (as_sent s code deoj ps)) a = mksite (t_os d) (t_addr d) (match r with Ok _ => s' | Err _ => kill j s' end) tr' (t_from d).
Proof.
  intros V (_ & Li) Ok N. destruct (Li j v V) as (Al & Ob). destruct (news_denotes s code deoj ps Ok) as (D & B & L).
  unfold hears. rewrite (hear_frame PS _ _ _ _ _ _ _ _ _ _ _ V Al Ob B L D N). reflexivity.
Qed.
Lemma news_from s code deoj ps a : news_ok code deoj ps -> received_from a (set_from (Some a) (as_sent s code deoj ps)).
Proof. intros Ok. exists (as_sent s code deoj ps). split; [apply news_frame, Ok|reflexivity]. Qed.
Lemma records_again ps o o1 o2 : records ps o o1 -> records ps o1 o2 -> records ps o o2.
Proof.
  intros (A1 & B1 & C1) (A2 & B2 & C2). split; [congruence|]. split; [congruence|]. intros c. rewrite C2, C1.
  destruct (get_property c o) as [q|]; [|reflexivity]. destruct (SpecCtrl.last_data c ps) as [d|]; [|reflexivity]. destruct q; reflexivity.
Qed.
(** What a controller that knows the device holds after hearing the announcement [n] times. *)
Definition heard_ctl (a : addr) (ps : list prop) (n : nat) (c c' : ctl) : Prop :=
  dkeys (c_found c') = dkeys (c_found c) /\
  (forall nd o, sget (fst a) (c_found c) = Some nd -> get_object (PInt 0x0EF001) nd = Some o ->
     exists nd' o', sget (fst a) (c_found c') = Some nd' /\ n_addr nd' = n_addr nd /\ get_object (PInt 0x0EF001) nd' = Some o' /\
     (if (0 <? n)%nat then records ps o o' else o' = o) /\ (forall k, k <> 0x0EF001 -> get_object (PInt k) nd' = get_object (PInt k) nd)) /\
  (forall ip, ip <> fst a -> sget ip (c_found c') = sget ip (c_found c)).
Lemma watch_step (PS : PySet) d c j v s code ps a nd o : watches d c -> server_at (t_node d) j = Some v -> news_ok code 0x0EF001 ps -> unlisted ps ->
  sget (fst a) (c_found c) = Some nd -> get_object (PInt 0x0EF001) nd = Some o ->
  exists c', watches (hears d j (wire (as_sent s code 0x0EF001 ps)) a) c' /\ servers_of (t_node (hears d j (wire (as_sent s code 0x0EF001 ps)) a)) = servers_of (t_node d) /\
    heard_ctl a ps 1 c c'.
Proof.
  intros (Q & Li & C) V Ok P G GO. destruct (node_received (t_os d) (t_tr d) (t_node d) (set_from (Some a) (as_sent s code 0x0EF001 ps))) as [[s' tr'] r] eqn:N.
  pose proof (news_from s code 0x0EF001 ps a Ok) as Fr. destruct (unlisted_none s code ps a P) as (AN & EL).
  destruct (L_C48_recorded_partial PS _ _ _ _ a _ nd o _ _ _ Q C Fr (or_intror eq_refl) eq_refl AN EL G GO N) as (-> & c' & n' & o' & C' & K & G' & Ad & GO' & R & Ot & Oi).
  exists c'. rewrite (hears_one PS d j v s code 0x0EF001 ps a s' tr' _ V Li Ok N). cbn [t_node t_os].
  pose proof (node_keeps_servers PS _ _ _ _ _ _ _ _ Fr N) as Sv.
  split; [split; [exact Q|split; [exact (listens_same _ _ Sv Li)|exact C']]|]. split; [unfold servers_of; now rewrite Sv|].
  split; [exact K|]. split; [|exact Oi]. intros nd0 o0 G0 GO0. assert (nd0 = nd) by congruence. subst nd0. assert (o0 = o) by congruence. subst o0.
  exists n', o'. repeat split; auto; apply R.
Qed.
Lemma heard_refl a ps c : heard_ctl a ps 0 c c.
Proof. split; [reflexivity|]. split; [|reflexivity]. intros nd o G GO. exists nd, o. repeat split; auto. Qed.
Lemma heard_trans a ps n c c1 c2 : heard_ctl a ps n c c1 -> heard_ctl a ps 1 c1 c2 -> heard_ctl a ps (S n) c c2.
Proof.
  intros (K1 & T1 & O1) (K2 & T2 & O2). split; [congruence|]. split; [|intros ip H; rewrite O2, O1; auto]. intros nd o G GO.
  destruct (T1 nd o G GO) as (nd1 & o1 & G1 & A1 & GO1 & R1 & D1). destruct (T2 nd1 o1 G1 GO1) as (nd2 & o2 & G2 & A2 & GO2 & R2 & D2).
  exists nd2, o2. split; [exact G2|]. split; [congruence|]. split; [exact GO2|]. split; [|intros k H; rewrite D2, D1; auto].
  cbn in R2 |- *. destruct n; cbn in R1; [subst o1; exact R2|exact (records_again _ _ _ _ R1 R2)].
Qed.
Lemma watch_run (PS : PySet) s code ps a c0 nd o : news_ok code 0x0EF001 ps -> unlisted ps ->
  sget (fst a) (c_found c0) = Some nd -> get_object (PInt 0x0EF001) nd = Some o -> forall l d,
  Forall (fun e => snd e = wire (as_sent s code 0x0EF001 ps)) l -> watches d c0 ->
  exists c', watches (fold_left (fun d e => hears d (fst e) (snd e) a) l d) c' /\
    servers_of (t_node (fold_left (fun d e => hears d (fst e) (snd e) a) l d)) = servers_of (t_node d) /\
    heard_ctl a ps (length (filter (fun e => (fst e <? servers_of (t_node d))%nat) l)) c0 c'.
Proof.
  intros Ok P G GO l d. induction l as [|[j b] l IH] using rev_ind; intros F W.
  - exists c0. cbn. split; [exact W|]. split; [reflexivity|apply heard_refl].
  - apply Forall_app in F as (F & Fb). apply Forall_inv in Fb. cbn [snd] in Fb. subst b. destruct (IH F W) as (c1 & W1 & S1 & H1). clear IH.
    rewrite fold_left_app. cbn [fold_left fst snd]. set (d1 := fold_left _ l d) in *. rewrite filter_app, app_length. cbn [filter fst].
    destruct (Nat.ltb_spec j (servers_of (t_node d))) as [L|L].
    + destruct (server_at (t_node d1) j) as [v|] eqn:V.
      2:{ exfalso. unfold server_at in V. apply nth_error_None in V. unfold servers_of in *. lia. }
      destruct H1 as (K & T & O). destruct (T nd o G GO) as (nd1 & o1 & G1 & _ & GO1 & _).
      destruct (watch_step PS d1 c1 j v s code ps a nd1 o1 W1 V Ok P G1 GO1) as (c2 & W2 & S2 & H2).
      exists c2. split; [exact W2|]. split; [congruence|]. cbn [length]. replace (length _ + 1)%nat with (S (length (filter (fun e => (fst e <? servers_of (t_node d))%nat) l))) by lia.
      apply (heard_trans a ps _ c0 c1 c2); [split; [exact K|split; [exact T|exact O]]|exact H2].
    + cbn [length]. rewrite Nat.add_0_r. assert (V : server_at (t_node d1) j = None) by (unfold server_at; apply nth_error_None; unfold servers_of in *; lia).
      rewrite (hears_none PS d1 j _ a V). exists c1. auto.
Qed.
Lemma L_C124_known_partial : forall (PS : PySet) w tr s code ps s' tr' m' r a sites sched k d c nd o,
  ln_ctl s = None -> 0 <= g_tid (ln_mgr s) <= 65535 -> news_ok code 0x0EF001 ps -> unlisted ps ->
  local_announce w tr s (news code 0x0EF001 ps) = (s', tr', m', r) ->
  nth_error sites k = Some d -> watches d c -> sget (fst a) (c_found c) = Some nd -> get_object (PInt 0x0EF001) nd = Some o ->
  let mail := reach ("224.0.23.0"%string, 3610) (since tr tr') in
  exists d' c' nd' o', nth_error (net_run a mail sched sites) k = Some d' /\ watches d' c' /\
  dkeys (c_found c') = dkeys (c_found c) /\ (forall ip, ip <> fst a -> sget ip (c_found c') = sget ip (c_found c)) /\
  sget (fst a) (c_found c') = Some nd' /\ n_addr nd' = n_addr nd /\ (forall i, i <> 0x0EF001 -> get_object (PInt i) nd' = get_object (PInt i) nd) /\
  get_object (PInt 0x0EF001) nd' = Some o' /\
  ((0 < brought (length mail) (servers_of (t_node d)) k sched)%nat -> records ps o o') /\ (brought (length mail) (servers_of (t_node d)) k sched = 0%nat -> o' = o).
Proof.
  intros PS w tr s code ps s' tr' m' r a sites sched k d c nd o C T Ok P H N W G GO mail.
  destruct (news_mail w tr s code _ ps s' tr' m' r C T Ok H) as (F & _). change (Forall (fun b => b = wire (as_sent s code 0x0EF001 ps)) mail) in F.
  pose proof (net_at PS a mail k sched sites d N) as X.
  destruct (watch_run PS s code ps a c nd o Ok P G GO (parts k mail sched) d (parts_from k mail sched _ F) W) as (c' & W' & _ & K & Tb & O).
  rewrite <- brought_parts in Tb. destruct (Tb nd o G GO) as (nd' & o' & G' & A' & GO' & R & D).
  eexists _, c', nd', o'. split; [exact X|]. split; [exact W'|]. repeat (split; [assumption|]).
  destruct (Nat.ltb_spec 0 (brought (length mail) (servers_of (t_node d)) k sched)); split; intros Y; auto; lia.
Qed.
(** ** Nodes without a controller *)
Lemma put_obj_id k o s : zget k (ln_objs s) = Some o -> put_obj k o s = s.
Proof. intros H. unfold put_obj, set_ln_node, ln_objs in *. rewrite (dset_id Z.eqb) by exact H. destruct s as [[]]; reflexivity. Qed.
Lemma device_step (PS : PySet) d j v s code deoj ps a : quiet (t_os d) -> listens (t_node d) -> ln_ctl (t_node d) = None -> news_ok code deoj ps -> server_at (t_node d) j = Some v ->
  exists evs, hears d j (wire (as_sent s code deoj ps)) a = mksite (t_os d) (t_addr d) (t_node d) (t_tr d ++ evs) (t_from d) /\ sent evs = [].
Proof.
  intros Q Li C Ok V. pose proof (news_from s code deoj ps a Ok) as Fr.
  destruct (node_received_spec (t_os d) (t_tr d) (t_node d) a _ Fr) as (s' & evs & r & N & L & _). specialize (L (or_introl C)).
  rewrite (hears_one PS d j v s code deoj ps a s' (t_tr d ++ evs) r V Li Ok N). exists evs.
  unfold local_spec in L. destruct (zget _ (ln_objs (t_node d))) as [o|] eqn:Z; [|destruct L as (-> & -> & ->); auto].
  destruct L as (oe & sn & -> & F & [(_ & _ & NQ & _)|L]); [contradiction|].
  rewrite L_C26_no_answer in L by (left; cbn; lia). destruct L as (_ & g' & -> & _ & -> & -> & ->).
  split; [|rewrite app_nil_r; exact (obj_events_sent _ _ _ F)]. rewrite put_obj_id by exact Z. destruct (t_node d); reflexivity.
Qed.
Lemma L_C124_devices : forall (PS : PySet) w tr s code deoj ps s' tr' m' r a sites sched k d,
  ln_ctl s = None -> 0 <= g_tid (ln_mgr s) <= 65535 -> news_ok code deoj ps ->
  local_announce w tr s (news code deoj ps) = (s', tr', m', r) ->
  nth_error sites k = Some d -> quiet (t_os d) -> listens (t_node d) -> ln_ctl (t_node d) = None ->
  exists evs, nth_error (net_run a (reach ("224.0.23.0"%string, 3610) (since tr tr')) sched sites) k = Some (mksite (t_os d) (t_addr d) (t_node d) (t_tr d ++ evs) (t_from d)) /\
  sent evs = [].
Proof.
  intros PS w tr s code deoj ps s' tr' m' r a sites sched k d C T Ok H N Q Li Cd.
  destruct (news_mail w tr s code _ ps s' tr' m' r C T Ok H) as (F & _). set (mail := reach _ _) in *.
  rewrite (net_at PS a mail k sched sites d N). apply (parts_from k mail sched) in F. induction (parts k mail sched) as [|[j b] l IH] using rev_ind.
  { exists []. split; [cbn; rewrite app_nil_r; destruct d; reflexivity|reflexivity]. }
  apply Forall_app in F as (F & Fb). apply Forall_inv in Fb. cbn [snd] in Fb. subst b. destruct (IH F) as (evs & E & S0). clear IH.
  rewrite fold_left_app. cbn [fold_left fst snd]. assert (E1 : fold_left (fun d0 e => hears d0 (fst e) (snd e) a) l d = mksite (t_os d) (t_addr d) (t_node d) (t_tr d ++ evs) (t_from d)) by congruence.
  rewrite E1. clear E1 E. destruct (server_at (t_node d) j) as [v|] eqn:V.
  - destruct (device_step PS (mksite (t_os d) (t_addr d) (t_node d) (t_tr d ++ evs) (t_from d)) j v s code deoj ps a Q Li Cd Ok V) as (ev2 & -> & S2).
    exists (evs ++ ev2). cbn [t_os t_addr t_node t_tr t_from]. rewrite app_assoc. split; [reflexivity|]. rewrite sent_app, S0, S2. reflexivity.
  - rewrite hears_none by exact V. exists evs. auto.
Qed.

(** ** Controllers that do not survive *)
Definition dead (s : lnode) (j : nat) : Prop := match server_at s j with Some v => s_alive v = false | None => True end.
Definition told_only (s : lnode) : Prop := forall j v, server_at s j = Some v -> s_obs v = [ONode].
Lemma kill_keeps_dead i s j : dead s j -> dead (kill i s) j.
Proof.
  unfold dead, kill, server_at. destruct (nth_error (g_servers (ln_mgr s)) i) as [x|] eqn:E; [|auto].
  cbn [ln_mgr set_ln_mgr g_servers set_servers]. rewrite DiscP.nth_upd. destruct (Nat.eqb_spec j i) as [->|]; [|auto].
  destruct (i <? _)%nat; [|auto]. intros _. reflexivity.
Qed.
Definition table_kept (c c' : ctl) : Prop := dkeys (c_found c') = dkeys (c_found c) /\
  forall ip n, sget ip (c_found c) = Some n -> exists n', sget ip (c_found c') = Some n' /\ forall i, i <> 0x0EF001 -> get_object (PInt i) n' = get_object (PInt i) n.
Lemma none_kept c c' ip : dkeys (c_found c') = dkeys (c_found c) -> sget ip (c_found c) = None -> sget ip (c_found c') = None.
Proof. intros K G. apply (dget_none String.eqb String.eqb_eq). apply (dget_none String.eqb String.eqb_eq) in G. rewrite K. exact G. Qed.
Lemma foreign_none s code deoj ps a : deoj <> 0x0EF001 \/ unlisted ps -> announces (set_from (Some a) (as_sent s code deoj ps)) = None.
Proof.
  intros P. unfold announces. cbn [as_sent set_from m_ESV m_DEOJ]. destruct (Z.eqb_spec deoj 0x0EF001) as [->|]; [|reflexivity]. destruct P as [P|P]; [contradiction|].
  exact (proj1 (unlisted_none s code ps a P)).
Qed.
Lemma ctl_step (PS : PySet) d c j s code deoj ps a : quiet (t_os d) -> told_only (t_node d) -> ln_ctl (t_node d) = Some c -> news_ok code deoj ps -> deoj <> 0x0EF001 \/ unlisted ps ->
  let d' := hears d j (wire (as_sent s code deoj ps)) a in
  exists c', servers_of (t_node d') = servers_of (t_node d) /\ quiet (t_os d') /\ told_only (t_node d') /\ ln_ctl (t_node d') = Some c' /\ table_kept c c' /\ (forall i, dead (t_node d) i -> dead (t_node d') i) /\
  (deoj <> 0x0EF001 \/ sget (fst a) (c_found c) = None -> dead (t_node d') j).
Proof.
  intros Q Ob C Ok P. cbv zeta. destruct (server_at (t_node d) j) as [v|] eqn:V; [destruct (s_alive v) eqn:Al|].
  2,3: assert (De : dead (t_node d) j) by (unfold dead; rewrite V; auto); assert (E : hears d j (wire (as_sent s code deoj ps)) a = d) by
    (unfold hears; rewrite kill_dead by exact De; destruct d; reflexivity); rewrite E; exists c; repeat split; auto; intros ip n G; exists n; auto.
  destruct (node_received (t_os d) (t_tr d) (t_node d) (set_from (Some a) (as_sent s code deoj ps))) as [[s' tr'] r] eqn:N.
  pose proof (news_from s code deoj ps a Ok) as Fr. destruct (news_denotes s code deoj ps Ok) as (D & B & L).
  pose proof (node_keeps_servers PS _ _ _ _ _ _ _ _ Fr N) as Sv.
  destruct (L_C48_devices_refuted PS _ _ _ _ a _ _ _ _ Q C Fr (foreign_none s code deoj ps a P) N) as (c' & C' & Tb).
  destruct (step_of PS _ _ _ _ a _ _ _ _ Q C Fr N) as (c2 & C2 & _ & S2). assert (c2 = c') by congruence. subst c2.
  destruct (found_step PS _ _ _ a _ _ _ _ Q Fr eq_refl (S2 eq_refl)) as (_ & K & _). rewrite (foreign_none s code deoj ps a P) in K.
  unfold hears. rewrite (hear_frame PS _ _ _ _ _ _ _ _ _ _ _ V Al (Ob j v V) B L D N). cbn [t_os t_node].
  exists c'. split; [destruct r; rewrite ?(proj1 (kill_shape j s')); unfold servers_of; now rewrite Sv|]. split; [exact Q|]. assert (Ob' : told_only s') by (unfold told_only, server_at in *; rewrite Sv; exact Ob).
  assert (De' : forall i, dead (t_node d) i -> dead s' i) by (unfold dead, server_at; rewrite Sv; auto).
  assert (Ck : ln_ctl (kill j s') = Some c') by (unfold kill; destruct (nth_error _ _); exact C').
  split; [destruct r; [exact Ob'|]; intros i x X; apply kill_obs in X as (x0 & X & ->); exact (Ob' i x0 X)|].
  split; [destruct r; assumption|]. split; [split; assumption|]. split; [destruct r; [exact De'|]; intros i Di; apply kill_keeps_dead, De', Di|].
  intros Y. assert (R : r = Err AttributeError).
  { destruct (Z.eqb_spec deoj 0x0EF001) as [->|ND].
    - destruct Y as [Y|Y]; [contradiction|]. destruct P as [P|P]; [contradiction|]. destruct (unlisted_none s code ps a P) as (AN & EL).
      exact (L_C50_unknown_refuted PS _ _ _ _ a _ _ _ _ Q C Fr (or_intror eq_refl) eq_refl EL AN Y N).
    - exact (proj1 (L_C50_device_refuted PS _ _ _ _ a _ _ _ _ Q C Fr (or_intror eq_refl) ND N)). }
  rewrite R. apply server_kill.
Qed.
Lemma kept_trans c c1 c2 : table_kept c c1 -> table_kept c1 c2 -> table_kept c c2.
Proof.
  intros (K1 & T1) (K2 & T2). split; [congruence|]. intros ip n G. destruct (T1 ip n G) as (n1 & G1 & O1). destruct (T2 ip n1 G1) as (n2 & G2 & O2).
  exists n2. split; [exact G2|]. intros i H. rewrite O2, O1; auto.
Qed.
Lemma ctl_run (PS : PySet) s code deoj ps a c : news_ok code deoj ps -> deoj <> 0x0EF001 \/ unlisted ps -> forall l d,
  Forall (fun e => snd e = wire (as_sent s code deoj ps)) l -> quiet (t_os d) -> told_only (t_node d) -> ln_ctl (t_node d) = Some c ->
  let d' := fold_left (fun d e => hears d (fst e) (snd e) a) l d in
  exists c', servers_of (t_node d') = servers_of (t_node d) /\ quiet (t_os d') /\ told_only (t_node d') /\ ln_ctl (t_node d') = Some c' /\ table_kept c c' /\
  (deoj <> 0x0EF001 \/ sget (fst a) (c_found c) = None -> forall j b, In (j, b) l -> dead (t_node d') j).
Proof.
  intros Ok P l d. induction l as [|[j b] l IH] using rev_ind; intros F Q Ob C; cbv zeta.
  - exists c. repeat split; auto; [|intros _ j b []]. intros ip n G. exists n. auto.
  - apply Forall_app in F as (F & Fb). apply Forall_inv in Fb. cbn [snd] in Fb. subst b. destruct (IH F Q Ob C) as (c1 & S1 & Q1 & Ob1 & C1 & K1 & D1). clear IH.
    rewrite fold_left_app. cbn [fold_left fst snd]. set (d1 := fold_left _ l d) in *.
    destruct (ctl_step PS d1 c1 j s code deoj ps a Q1 Ob1 C1 Ok P) as (c2 & S2 & Q2 & Ob2 & C2 & K2 & Kd & Dj). exists c2. split; [congruence|]. split; [exact Q2|]. split; [exact Ob2|]. split; [exact C2|].
    split; [exact (kept_trans _ _ _ K1 K2)|]. intros Y j0 b I. apply in_app_iff in I as [I|[I|[]]]; [exact (Kd _ (D1 Y j0 b I))|].
    assert (j0 = j) by congruence. subst j0. apply Dj. destruct Y as [Y|Y]; [left; exact Y|right]. exact (none_kept _ _ _ (proj1 K1) Y).
Qed.
Lemma parts_in k mail sched j i b : In (k, j, i) sched -> nth_error mail i = Some b -> In (j, b) (parts k mail sched).
Proof. intros I E. unfold parts. apply in_flat_map. exists (k, j, i). split; [exact I|]. rewrite Nat.eqb_refl, E. left. reflexivity. Qed.

Lemma L_C124_objects_refuted : forall (PS : PySet) w tr s code deoj ps s' tr' m' r a sites sched k d c,
  ln_ctl s = None -> 0 <= g_tid (ln_mgr s) <= 65535 -> news_ok code deoj ps -> deoj <> 0x0EF001 \/ unlisted ps ->
  local_announce w tr s (news code deoj ps) = (s', tr', m', r) ->
  nth_error sites k = Some d -> watches d c ->
  exists d' c', nth_error (net_run a (reach ("224.0.23.0"%string, 3610) (since tr tr')) sched sites) k = Some d' /\ ln_ctl (t_node d') = Some c' /\
  dkeys (c_found c') = dkeys (c_found c) /\
  forall ip n, sget ip (c_found c) = Some n -> exists n', sget ip (c_found c') = Some n' /\ forall i, i <> 0x0EF001 -> get_object (PInt i) n' = get_object (PInt i) n.
Proof.
  intros PS w tr s code deoj ps s' tr' m' r a sites sched k d c C T Ok P H N (Q & Li & Cd).
  destruct (news_mail w tr s code _ ps s' tr' m' r C T Ok H) as (F & _). set (mail := reach _ _) in *. apply (parts_from k mail sched) in F.
  destruct (ctl_run PS s code deoj ps a c Ok P _ d F Q (fun j v V => proj2 (proj2 Li j v V)) Cd) as (c' & _ & _ & _ & C' & (K & Tb) & _).
  rewrite (net_at PS a mail k sched sites d N). eexists _, c'. split; [reflexivity|]. auto.
Qed.
Lemma L_C124_ends_refuted : forall (PS : PySet) w tr s code deoj ps s' tr' m' r a sites sched k d c j i,
  ln_ctl s = None -> 0 <= g_tid (ln_mgr s) <= 65535 -> news_ok code deoj ps ->
  deoj <> 0x0EF001 \/ (unlisted ps /\ sget (fst a) (c_found c) = None) ->
  local_announce w tr s (news code deoj ps) = (s', tr', m', r) ->
  nth_error sites k = Some d -> watches d c -> (j < servers_of (t_node d))%nat ->
  In (k, j, i) sched -> (i < length (reach ("224.0.23.0"%string, 3610%Z) (since tr tr')))%nat ->
  exists d' v, nth_error (net_run a (reach ("224.0.23.0"%string, 3610) (since tr tr')) sched sites) k = Some d' /\
  server_at (t_node d') j = Some v /\ s_alive v = false.
Proof.
  intros PS w tr s code deoj ps s' tr' m' r a sites sched k d c j i C T Ok P H N (Q & Li & Cd) Lj I Lm.
  destruct (news_mail w tr s code _ ps s' tr' m' r C T Ok H) as (F & _). set (mail := reach _ _) in *. pose proof F as F0. apply (parts_from k mail sched) in F.
  assert (P1 : deoj <> 0x0EF001 \/ unlisted ps) by tauto. assert (P2 : deoj <> 0x0EF001 \/ sget (fst a) (c_found c) = None) by tauto.
  destruct (ctl_run PS s code deoj ps a c Ok P1 _ d F Q (fun j v V => proj2 (proj2 Li j v V)) Cd) as (c' & X & _ & _ & C' & _ & D).
  destruct (nth_error mail i) as [b|] eqn:Eb; [|apply nth_error_None in Eb; lia]. specialize (D P2 j b (parts_in k mail sched j i b I Eb)).
  rewrite (net_at PS a mail k sched sites d N). set (d' := fold_left _ _ d) in *. exists d'.
  unfold dead in D. destruct (server_at (t_node d') j) as [v|] eqn:V; [exists v; auto|]. exfalso. unfold server_at in V. apply nth_error_None in V. unfold servers_of in *. lia.
Qed.
