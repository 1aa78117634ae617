(** Lemmas for C125. *)
From Verif Require Import PyBase BytesM EsvM MsgM PropM ObjM DbData DbM NodeM LocalM CtrlM
  SpecWire SpecObj SpecReq SpecDb SpecNode SpecProf SpecLocal SpecSrv SpecCtrl SpecEnd SpecLife SpecSelf SpecDisc SpecGroup SpecCrowd
  DictP BytesP WireP CodecP ObjP MapP ReqP DbP NodeP ProfP LocalP AnswerP SrvP CtrlP EndP NetP LifeP SelfP DiscP SeekP.
From Verif Require Import SpecReq.
Require Import ZifyBool Permutation.

(** ** Single steps *)
Lemma search_heard (PS : PySet) w tr s codes a j b s' tr' v : quiet w -> reliable w -> ready codes s -> the_search b ->
  server_at s j = Some v -> s_alive v = true -> s_obs v = [ONode] -> zlen (device_codes codes) <= 84 ->
  deliver w tr s j (b, a) = (s', tr') ->
  ready codes s' /\ g_servers (ln_mgr s') = g_servers (ln_mgr s) /\ ln_ctl s' = ln_ctl s /\ g_tid (ln_mgr s') = g_tid (ln_mgr s) /\
  exists evs i y n, tr' = tr ++ evs /\ sent evs = [(i, y, a, Ok n)] /\ is_answer (device_codes codes) y.
Proof.
  intros Q R RD Tb V A O Sm H. destruct (device_hears PS w tr s codes a j b s' tr' v Q R RD Tb V A O H) as (RD' & _ & _ & evs & Et & D1 & _).
  destruct (D1 Sm) as (G & y & Ry & Ay). clear D1. split; [exact RD'|]. split; [exact G|].
  destruct Tb as (t & Ht & Eb). pose proof (search_frame t Ht) as Fr.
  assert (Hm : received_from a (set_from (Some a) (set_TID t search_message))) by (eexists; split; [exact Fr|reflexivity]).
  destruct (node_received_spec w tr s a _ Hm) as (s1 & ev1 & r & N & L & _). specialize (L (or_intror eq_refl)).
  rewrite (hear_frame PS w tr s j v b a (set_TID t search_message) s1 (tr ++ ev1) r V A O) in H; try exact N.
  2:{ rewrite Eb. apply wire_bytes_ok; apply Fr. }
  2:{ rewrite Eb. apply search_short. }
  2:{ split; [exact Fr|]. exists []. rewrite app_nil_r. exact Eb. }
  destruct (search_answer PS w tr s a _ codes s1 _ r Q R RD Hm (conj eq_refl (conj eq_refl eq_refl)) N) as (evs2 & Et2 & A1 & _).
  destruct (A1 Sm) as (i & y1 & n & rsp & Bo & Sn & Ro & _). subst r.
  assert (s' = s1 /\ tr' = tr ++ ev1) as (-> & ->) by (split; congruence). apply app_inv_head in Et, Et2. subst evs2 evs.
  assert (y1 = y).
  { revert Ry. unfold reach. rewrite Sn. cbn [filter]. destruct (delivered _ && _); cbn [map]; [|discriminate]. intros E. injection E as E. exact E. }
  subst y1. assert (K : ln_ctl s1 = ln_ctl s /\ ln_mgr s1 = ln_mgr s).
  { clear N. unfold local_spec in L. destruct (zget _ (ln_objs s)) as [o|]; [|destruct L as (-> & _); auto].
    destruct L as (oe & sn & _ & _ & [(_ & -> & _)|L]); [auto|]. destruct (obj_message_received o _) as [[o' tl] x].
    destruct L as (_ & g' & -> & _ & X). destruct x as [[rs|]|e].
    - destruct X as (t1 & St & _). unfold stamped in St. cbn [m_TID set_from set_TID search_message] in St. replace (t =? 0) with false in St by lia. destruct St as (-> & _). split; reflexivity.
    - destruct X as (_ & -> & _). split; reflexivity.
    - destruct X as (_ & -> & _). split; reflexivity. }
  destruct K as (K1 & K2). split; [exact K1|]. split; [now rewrite K2|]. exists ev1, i, y, n. auto.
Qed.

Lemma answer_heard (PS : PySet) w tr s c l an b j v codes s' tr' : quiet w -> ready codes s -> ln_ctl s = Some c -> is_answer l b ->
  zlen l <= 84 -> NoDup (0x0EF001 :: l) -> Forall (fun k => 0 <= k < 2 ^ 24) l ->
  server_at s j = Some v -> s_alive v = true -> s_obs v = [ONode] ->
  deliver w tr s j (b, an) = (s', tr') ->
  ready codes s' /\ exists evs, tr' = tr ++ evs /\ sent evs = [].
Proof.
  intros Q RD C An Hl ND Rg V A O H. pose proof An as (rsp & D & Bo & Lb & E1 & E2 & E3 & E5).
  assert (Hr : received_from an (set_from (Some an) rsp)) by (exists rsp; split; [apply D|reflexivity]).
  destruct (node_received_spec w tr s an _ Hr) as (s1 & evs & r & N & _ & L).
  assert (NR : is_request (m_ESV (set_from (Some an) rsp)) = false) by (cbn [set_from m_ESV]; rewrite E1; reflexivity).
  destruct (L ltac:(congruence) NR) as (F & c' & Es). rewrite (hear_frame PS w tr s j v b an rsp s1 (tr ++ evs) r V A O Bo Lb D N) in H.
  assert (tr' = tr ++ evs) by (destruct r; congruence).
  assert (RD1 : ready codes s1). { subst s1. destruct RD as (R1 & R2 & R3). split; [exact (linv_objs s _ eq_refl eq_refl R1)|]. split; assumption. }
  split.
  - destruct r as [[]|e]; [assert (s' = s1) by congruence; subst s'; exact RD1|]. assert (s' = kill j s1) by congruence. subst s'. apply kill_ready. exact RD1.
  - exists evs. split; [assumption|]. exact (listener_events_sent _ F).
Qed.

Lemma search_sends w tr s c s' tr' r : ln_ctl s = Some c -> 0 <= g_tid (ln_mgr s) <= 65535 -> ctl_search w tr s = (s', tr', r) ->
  exists snds t, tr' = tr ++ map ev_of snds /\ 0 < t < 65536 /\ casts (wire (set_TID t search_message)) MULTICAST (open_ifs s) snds /\ Forall (from_os w) snds /\
  ln_objs s' = ln_objs s /\ ln_prof s' = ln_prof s.
Proof.
  intros C T H. destruct (search_bytes w tr s c C) as (g' & t & snds & r1 & E & Cs & Fo & G & Tt). specialize (Tt T). rewrite H in E. injection E as -> -> _.
  exists snds, t. split; [reflexivity|]. split; [subst t; pose proof (Z.mod_pos_bound (g_tid (ln_mgr s)) 65535); lia|]. auto.
Qed.

(** ** The network *)
Lemma outbox_more d evs s : (t_from d <= length (t_tr d))%nat ->
  outbox (mksite (t_os d) (t_addr d) s (t_tr d ++ evs) (t_from d)) = outbox d ++ map (fun x => (send_bytes x, snd (fst x))) (sent evs).
Proof.
  intros L. unfold outbox. cbn [t_from t_tr]. rewrite skipn_app. replace (t_from d - length (t_tr d))%nat with 0%nat by lia.
  cbn [skipn]. rewrite sent_app, map_app. reflexivity.
Qed.
Lemma addr_eqb_eq a b : addr_eqb a b = true -> a = b.
Proof. unfold addr_eqb. intros H. apply andb_prop in H as (A & B). apply String.eqb_eq in A. apply Z.eqb_eq in B. destruct a, b. cbn in *. congruence. Qed.
Lemma hears_nothing (PS : PySet) d j b a : server_at (t_node d) j = None -> hears d j b a = d.
Proof. intros V. unfold hears. rewrite kill_dead by (rewrite V; exact I). destruct d; reflexivity. Qed.

Section Crowd.
Context {PS : PySet}.
Variables (sites : list site) (ls : list (list Z)).
Hypothesis (Cr : crowd sites ls).
Definition speaks (d0 : site) (l : list Z) (e : list Z * addr) : Prop :=
  (snd e = MULTICAST /\ the_search (fst e) /\ ln_ctl (t_node d0) <> None) \/
  (is_answer l (fst e) /\ exists k d, nth_error sites k = Some d /\ t_addr d = snd e /\ ln_ctl (t_node d) <> None).
Definition tabled (a : list stir) (k : nat) (c : ctl) : Prop :=
  NoDup (dkeys (c_found c)) /\
  (forall ip nd, sget ip (c_found c) = Some nd -> exists i p l, nth_error sites i = Some p /\ nth_error ls i = Some l /\
     told sites i k a /\ ip = fst (t_addr p) /\ depicts nd (t_addr p) l) /\
  (forall i p, nth_error sites i = Some p -> told sites i k a -> exists nd, sget (fst (t_addr p)) (c_found c) = Some nd).
Definition steady (d0 : site) (l : list Z) (d : site) : Prop :=
  t_os d = t_os d0 /\ t_addr d = t_addr d0 /\ servers_of (t_node d) = servers_of (t_node d0) /\ (t_from d <= length (t_tr d))%nat /\
  (exists codes, ready codes (t_node d) /\ device_codes codes = l) /\ listens (t_node d) /\ 0 <= g_tid (ln_mgr (t_node d)) <= 65535 /\
  Forall (speaks d0 l) (outbox d).
Definition sinv (a : list stir) (k : nat) (d0 : site) (l : list Z) (d : site) : Prop :=
  steady d0 l d /\
  match ln_ctl (t_node d0) with
  | None => ln_ctl (t_node d) = None
  | Some _ => exists c, ln_ctl (t_node d) = Some c /\ tabled a k c
  end.
Definition cwinv (a : list stir) : Prop :=
  length (crowd_run a sites) = length sites /\
  forall k d0 l, nth_error sites k = Some d0 -> nth_error ls k = Some l -> exists d, nth_error (crowd_run a sites) k = Some d /\ sinv a k d0 l d.

Lemma told_app i k a e : told sites i k (a ++ [e]) <->
  told sites i k a \/ exists n j p d b, e = Pass i n k j /\ nth_error (crowd_run a sites) i = Some p /\ nth_error sites k = Some d /\
    (j < servers_of (t_node d))%nat /\ nth_error (outbox p) n = Some (b, t_addr d).
Proof.
  split.
  - intros (p & n & j & q & s & d & b & E & H). destruct q as [|y q].
    + right. apply app_inj_tail in E. destruct E as (-> & ->). exists n, j, s, d, b. auto.
    + left. destruct (exists_last (l := y :: q)) as (q' & z & Z); [discriminate|]. rewrite Z in E.
      change (p ++ Pass i n k j :: q' ++ [z]) with (p ++ (Pass i n k j :: q') ++ [z]) in E. rewrite app_assoc in E. apply app_inj_tail in E. destruct E as (-> & _).
      exists p, n, j, q', s, d, b. auto.
  - intros [(p & n & j & q & s & d & b & -> & H)|(n & j & p & d & b & -> & H)].
    + exists p, n, j, (q ++ [e]), s, d, b. rewrite <- app_assoc. auto.
    + exists a, n, j, [], p, d, b. auto.
Qed.
Lemma sinv_same a e k d0 l d : (forall i, told sites i k (a ++ [e]) -> told sites i k a) -> sinv a k d0 l d -> sinv (a ++ [e]) k d0 l d.
Proof.
  intros No (St & C). split; [exact St|]. destruct (ln_ctl (t_node d0)) as [c0|]; [|exact C]. destruct C as (c & E & N & C1 & C2). exists c. split; [exact E|]. split; [exact N|]. split.
  - intros ip nd H. destruct (C1 ip nd H) as (i & p & q & A1 & A2 & A3 & A4). exists i, p, q. split; [exact A1|]. split; [exact A2|]. split; [|exact A4]. apply told_app. left. exact A3.
  - intros i p A1 A2. exact (C2 i p A1 (No i A2)).
Qed.
Lemma crowd_site k d : nth_error sites k = Some d -> exists l, nth_error ls k = Some l /\ hosts d l /\ zlen l <= 84 /\ t_addr d <> MULTICAST /\
  0 <= g_tid (ln_mgr (t_node d)) <= 65535 /\ (forall c, ln_ctl (t_node d) = Some c -> c_found c = []).
Proof.
  intros E. destruct Cr as (H & N & S & A & T). destruct (hosted sites ls H N k d E) as (l & El & Ho). exists l. split; [exact El|]. split; [exact Ho|].
  rewrite Forall_forall in S, A, T. split; [apply S; eapply nth_error_In; exact El|]. apply nth_error_In in E. split; [exact (A d E)|]. exact (T d E).
Qed.
Lemma one_ip i k p d : nth_error sites i = Some p -> nth_error sites k = Some d -> fst (t_addr p) = fst (t_addr d) -> i = k.
Proof.
  intros A B E. destruct Cr as (_ & N & _).
  apply (proj1 (NoDup_nth_error _) N i k); [rewrite map_length; apply nth_error_Some; congruence|].
  rewrite !nth_error_map, A, B. cbn [option_map]. congruence.
Qed.

Lemma asks a k d0 l d c s tr r : sinv a k d0 l d -> ln_ctl (t_node d0) <> None -> ln_ctl (t_node d) = Some c ->
  ctl_search (t_os d) (t_tr d) (t_node d) = (s, tr, r) -> sinv a k d0 l (mksite (t_os d) (t_addr d) s tr (t_from d)).
Proof.
  intros (St & Tb) Nc C H. destruct St as (Eo & Ea & Es & Lt & (codes & RD & DC) & Li & Ti & Fs).
  destruct (search_mail _ _ _ c s tr r C Ti H) as (_ & G & C' & _). pose proof (search_keeps _ _ _ c s tr r C Ti H) as Ti'.
  destruct (search_sends _ _ _ c s tr r C Ti H) as (snds & t & -> & Ht & Cs & _ & Ob & Pr). split.
  - do 2 (split; [assumption|]). cbn [t_node]. split; [unfold servers_of in *; rewrite G; exact Es|]. cbn [t_from t_tr]. split; [rewrite app_length; lia|].
    split. { exists codes. split; [|exact DC]. destruct RD as (R1 & R2 & R3). split; [exact (linv_objs _ _ Ob Pr R1)|]. rewrite Ob. split; [exact R2|]. unfold open_ifs in *. rewrite G. exact R3. }
    split; [exact (listens_same _ _ G Li)|]. split; [exact Ti'|]. rewrite outbox_more by exact Lt. rewrite sent_evs. apply Forall_app. split; [exact Fs|].
    apply Forall_forall. intros e Ie. apply in_map_iff in Ie as (x & <- & Ix). destruct (AnswerP.casts_all _ _ _ _ Cs x Ix) as (Eb & Ed). left. cbn [fst snd].
    split; [exact Ed|]. split; [exists t; auto|exact Nc].
  - cbn [t_node]. destruct (ln_ctl (t_node d0)); [|contradiction]. destruct Tb as (c1 & E1 & X). exists c1. split; [congruence|exact X].
Qed.

Lemma hears_search a k d0 l d i p0 j b : nth_error sites k = Some d0 -> nth_error ls k = Some l -> sinv a k d0 l d -> the_search b ->
  nth_error sites i = Some p0 -> ln_ctl (t_node p0) <> None -> sinv a k d0 l (hears d j b (t_addr p0)).
Proof.
  intros Kd Kl (St & Tb) Tsb Ip Nc. destruct (server_at (t_node d) j) as [v|] eqn:V; [|rewrite hears_nothing by exact V; split; assumption].
  destruct (crowd_site k d0 Kd) as (l1 & El & Ho & Sm & _). assert (l1 = l) by congruence. subst l1. destruct Ho as (_ & _ & _ & Q & R & _).
  destruct St as (Eo & Ea & Es & Lt & (codes & RD & DC) & Li & Ti & Fs). destruct (proj2 Li j v V) as (Al & Ob).
  unfold hears. destruct (deliver (t_os d) (t_tr d) (t_node d) j (b, t_addr p0)) as [s' tr'] eqn:H. pose proof H as H1. rewrite Eo in H1.
  destruct (search_heard PS _ _ _ codes _ j b s' tr' v Q R RD Tsb V Al Ob ltac:(rewrite DC; exact Sm) H1) as (RD' & G & C' & T' & evs & ii & y & n & -> & Sn & Ay).
  split.
  - do 2 (split; [assumption|]). cbn [t_node]. split; [unfold servers_of in *; rewrite G; exact Es|]. cbn [t_from t_tr]. split; [rewrite app_length; lia|].
    split; [eauto|]. split; [exact (listens_same _ _ G Li)|]. split; [rewrite T'; exact Ti|]. rewrite outbox_more by exact Lt. rewrite Sn. apply Forall_app. split; [exact Fs|].
    constructor; [|constructor]. right. cbn. rewrite <- DC. split; [exact Ay|]. exists i, p0. auto.
  - cbn [t_node]. rewrite C'. exact Tb.
Qed.
Lemma hears_answer a k d0 l d i p0 q p n j b : nth_error sites k = Some d0 -> nth_error ls k = Some l -> sinv a k d0 l d -> is_answer q b ->
  nth_error sites i = Some p0 -> nth_error ls i = Some q -> ln_ctl (t_node d0) <> None ->
  nth_error (crowd_run a sites) i = Some p -> nth_error (outbox p) n = Some (b, t_addr d0) -> sinv (a ++ [Pass i n k j]) k d0 l (hears d j b (t_addr p0)).
Proof.
  intros Kd Kl Si An Ip Iq Nc Ep Eb. pose proof Si as (St & Tb). destruct St as (Eo & Ea & Es & Lt & (codes & RD & DC) & Li & Ti & Fs).
  destruct (server_at (t_node d) j) as [v|] eqn:V.
  2:{ rewrite hears_nothing by exact V. apply sinv_same; [|exact Si]. intros i1 T. apply told_app in T. destruct T as [T|(n1 & j1 & p1 & d1 & b1 & E & _ & D1 & Lj & _)]; [exact T|].
      exfalso. injection E as <- <- <-. assert (d1 = d0) by congruence. subst d1. rewrite <- Es in Lj. apply nth_error_Some in Lj. apply Lj. exact V. }
  assert (Lj : (j < servers_of (t_node d0))%nat). { rewrite <- Es. apply nth_error_Some. unfold server_at in V. rewrite V. discriminate. }
  destruct (crowd_site k d0 Kd) as (_ & _ & (_ & _ & _ & Q & R & _) & _). destruct (crowd_site i p0 Ip) as (q1 & Eq & Ho & Sm & _). assert (q1 = q) by congruence. subst q1.
  destruct (hosts_ready p0 q Ho) as (_ & _ & _ & ND). destruct Ho as (_ & Rg & _). destruct (proj2 Li j v V) as (Al & Ob).
  destruct (ln_ctl (t_node d0)) as [c0|] eqn:C0; [|contradiction]. destruct Tb as (c & Cc & Nk & C1 & C2).
  unfold hears. destruct (deliver (t_os d) (t_tr d) (t_node d) j (b, t_addr p0)) as [s' tr'] eqn:H. pose proof H as H1. rewrite Eo in H1.
  destruct (controller_hears PS _ _ _ c q _ b j v s' tr' Q Cc An Sm ND Rg V Al Ob H1) as (G & c' & Cc' & Fk & Fo & nd & Fn & Dn).
  pose proof (answer_tid PS _ _ _ c q _ b j v s' tr' Cc An V Al Ob H1) as Tn.
  destruct (answer_heard PS _ _ _ c q _ b j v codes s' tr' Q RD Cc An Sm ND Rg V Al Ob H1) as (RD' & evs & -> & Sn).
  assert (Tt : told sites i k (a ++ [Pass i n k j])). { apply told_app. right. exists n, j, p, d0, b. auto. }
  split.
  - do 2 (split; [assumption|]). cbn [t_node]. split; [unfold servers_of in *; rewrite G; exact Es|]. cbn [t_from t_tr]. split; [rewrite app_length; lia|].
    split; [eauto|]. split; [exact (listens_same _ _ G Li)|]. split; [rewrite Tn; exact Ti|]. rewrite outbox_more by exact Lt. rewrite Sn, app_nil_r. exact Fs.
  - cbn [t_node]. rewrite C0. exists c'. split; [exact Cc'|]. split; [|split].
    + rewrite Fk. unfold add_key. destruct (existsb _ _) eqn:X; [exact Nk|]. apply (Permutation_NoDup (Permutation_cons_append _ _)). constructor; [|exact Nk]. intros I.
      assert (existsb (String.eqb (fst (t_addr p0))) (dkeys (c_found c)) = true); [|congruence]. apply existsb_exists. exists (fst (t_addr p0)). split; [exact I|apply String.eqb_refl].
    + intros ip nd1 Hn. destruct (string_dec ip (fst (t_addr p0))) as [->|Ni].
      * exists i, p0, q. assert (nd1 = nd) by congruence. subst nd1. auto.
      * rewrite (Fo ip Ni) in Hn. destruct (C1 ip nd1 Hn) as (i1 & p1 & q1 & A1 & A2 & A3 & A4). exists i1, p1, q1. split; [exact A1|]. split; [exact A2|]. split; [|exact A4]. apply told_app. left. exact A3.
    + intros i1 p1 A1 A2. destruct (string_dec (fst (t_addr p1)) (fst (t_addr p0))) as [E|Ni]; [rewrite E; eauto|]. rewrite (Fo _ Ni).
      apply told_app in A2. destruct A2 as [A2|(n1 & j1 & s1 & d1 & b1 & E & _)]; [exact (C2 i1 p1 A1 A2)|]. injection E as -> _ _. congruence.
Qed.

Lemma crowd_list k d0 : nth_error sites k = Some d0 -> exists l, nth_error ls k = Some l.
Proof. intros E. destruct (crowd_site k d0 E) as (l & El & _). eauto. Qed.
Lemma crowd_back (x : list site) k d : length x = length sites -> nth_error x k = Some d -> exists d0 : site, nth_error sites k = Some d0.
Proof.
  intros L E. destruct (nth_error sites k) as [d0|] eqn:E0; [eauto|]. exfalso. apply nth_error_None in E0. rewrite <- L in E0. apply nth_error_None in E0. congruence.
Qed.
Lemma cwinv_keep a e : crowd_step (crowd_run a sites) e = crowd_run a sites -> (forall i k d, nth_error sites k = Some d -> told sites i k (a ++ [e]) -> told sites i k a) -> cwinv a -> cwinv (a ++ [e]).
Proof.
  intros E No (L & W). unfold cwinv. replace (crowd_run (a ++ [e]) sites) with (crowd_run a sites) by (unfold crowd_run in *; rewrite fold_left_app; symmetry; exact E).
  split; [exact L|]. intros k d0 l A B. destruct (W k d0 l A B) as (d & Ed & S). exists d. split; [exact Ed|]. apply sinv_same; [|exact S]. intros i. exact (No i k d0 A).
Qed.
Lemma cwinv_upd a e k d' : crowd_step (crowd_run a sites) e = upd (crowd_run a sites) k d' -> (forall i k' d, k' <> k -> nth_error sites k' = Some d -> told sites i k' (a ++ [e]) -> told sites i k' a) ->
  (forall d0 l, nth_error sites k = Some d0 -> nth_error ls k = Some l -> sinv (a ++ [e]) k d0 l d') -> cwinv a -> cwinv (a ++ [e]).
Proof.
  intros E No K (L & W). unfold cwinv. replace (crowd_run (a ++ [e]) sites) with (upd (crowd_run a sites) k d') by (unfold crowd_run in *; rewrite fold_left_app; symmetry; exact E).
  split; [rewrite upd_length; exact L|]. intros k0 d0 l A B. rewrite nth_upd. destruct (W k0 d0 l A B) as (d & Ed & S). destruct (Nat.eqb_spec k0 k) as [->|Nk].
  - exists d'. split; [|exact (K d0 l A B)]. replace (k <? length (crowd_run a sites))%nat with true; [reflexivity|]. symmetry. apply Nat.ltb_lt, nth_error_Some. congruence.
  - exists d. split; [exact Ed|]. apply sinv_same; [|exact S]. intros i. exact (No i k0 d0 Nk A).
Qed.
Lemma crowd_inv a e : cwinv a -> cwinv (a ++ [e]).
Proof.
  intros I. pose proof I as (L & W). destruct e as [k|i n k j].
  - assert (No : forall i k' (d : site), nth_error sites k' = Some d -> told sites i k' (a ++ [Ask k]) -> told sites i k' a).
    { intros i k' d _ T. apply told_app in T. destruct T as [T|(n1 & j1 & p1 & d1 & b1 & E & _)]; [exact T|discriminate]. }
    destruct (nth_error (crowd_run a sites) k) as [d|] eqn:Kd; [|apply cwinv_keep; [cbn [crowd_step]; rewrite Kd; reflexivity|exact No|exact I]].
    destruct (ln_ctl (t_node d)) as [c|] eqn:C; [|apply cwinv_keep; [cbn [crowd_step]; rewrite Kd, C; reflexivity|exact No|exact I]].
    destruct (ctl_search (t_os d) (t_tr d) (t_node d)) as [[s tr] r] eqn:H.
    apply (cwinv_upd a (Ask k) k (mksite (t_os d) (t_addr d) s tr (t_from d))); [cbn [crowd_step]; rewrite Kd, C, H; reflexivity|intros i k' d1 _; apply No| |exact I].
    intros d0 l A B. destruct (W k d0 l A B) as (d1 & Ed & S). assert (d1 = d) by congruence. subst d1. apply sinv_same; [intros i; exact (No i k d0 A)|].
    apply (asks a k d0 l d c s tr r S); [|exact C|exact H]. intros Nc. destruct S as (_ & S). rewrite Nc in S. congruence.
  - assert (No : forall i' k' (d : site), k' <> k -> nth_error sites k' = Some d -> told sites i' k' (a ++ [Pass i n k j]) -> told sites i' k' a).
    { intros i' k' d Nk _ T. apply told_app in T. destruct T as [T|(n1 & j1 & p1 & d1 & b1 & E & _)]; [exact T|]. injection E as _ _ <- _. contradiction. }
    assert (Keep : crowd_step (crowd_run a sites) (Pass i n k j) = crowd_run a sites ->
      (forall p d b to, nth_error (crowd_run a sites) i = Some p -> nth_error (crowd_run a sites) k = Some d -> nth_error (outbox p) n = Some (b, to) -> for_site to d = false) -> cwinv (a ++ [Pass i n k j])).
    { intros E Nf. apply cwinv_keep; [exact E| |exact I]. intros i' k' d' A T. apply told_app in T. destruct T as [T|(n1 & j1 & p1 & d1 & b1 & E1 & P1 & D1 & _ & B1)]; [exact T|].
      exfalso. injection E1 as <- <- <- <-. destruct (crowd_list k d1 D1) as (l & El). destruct (W k d1 l D1 El) as (d & Ed & ((_ & Ea & _) & _)).
      specialize (Nf p1 d b1 (t_addr d1) P1 Ed B1). unfold for_site in Nf. rewrite Ea, addr_eqb_refl, orb_true_r in Nf. discriminate. }
    destruct (nth_error (crowd_run a sites) i) as [p|] eqn:Kp; [|apply Keep; [cbn [crowd_step]; rewrite Kp; reflexivity|discriminate]].
    destruct (nth_error (crowd_run a sites) k) as [d|] eqn:Kd; [|apply Keep; [cbn [crowd_step]; rewrite Kp, Kd; reflexivity|discriminate]].
    destruct (nth_error (outbox p) n) as [[b to]|] eqn:Eb; [|apply Keep; [cbn [crowd_step]; rewrite Kp, Kd, Eb; reflexivity|intros p1 d1 b1 to1 E1 _ E3; congruence]].
    destruct (for_site to d) eqn:Fs; [|apply Keep; [cbn [crowd_step]; rewrite Kp, Kd, Eb, Fs; reflexivity|intros p1 d1 b1 to1 E1 E2 E3; congruence]].
    clear Keep. apply (cwinv_upd a (Pass i n k j) k (hears d j b (t_addr p))); [cbn [crowd_step]; rewrite Kp, Kd, Eb, Fs; reflexivity|exact No| |exact I].
    intros d0 l A B. destruct (W k d0 l A B) as (d1 & Ed & S). assert (d1 = d) by congruence. subst d1.
    destruct (crowd_back _ i p L Kp) as (p0 & Ip). destruct (crowd_list i p0 Ip) as (q & Iq). destruct (W i p0 q Ip Iq) as (p1 & Ep & Sp). assert (p1 = p) by congruence. subst p1.
    pose proof Sp as ((_ & Eap & _ & _ & _ & _ & _ & Sk) & _). rewrite Forall_forall in Sk. specialize (Sk (b, to) (nth_error_In _ _ Eb)).
    pose proof S as ((_ & Ead & _) & _). rewrite Eap.
    destruct (crowd_site k d0 A) as (_ & _ & _ & _ & Ng & _).
    destruct Sk as [(Et & Tb & Nc)|(An & k1 & d1 & K1 & Et & Nc)]; cbn [fst snd] in *.
    + apply sinv_same; [|exact (hears_search a k d0 l d i p0 j b A B S Tb Ip Nc)]. intros i' T. apply told_app in T. destruct T as [T|(n1 & j1 & p1 & d1 & b1 & E1 & P1 & D1 & _ & B1)]; [exact T|].
      exfalso. injection E1 as <- <- <-. assert (p1 = p) by congruence. assert (d1 = d0) by congruence. subst p1 d1. assert (to = t_addr d0) by congruence. congruence.
    + destruct (crowd_site k1 d1 K1) as (_ & _ & _ & _ & Ng1 & _). unfold for_site in Fs. apply orb_prop in Fs. destruct Fs as [Fs|Fs]; apply addr_eqb_eq in Fs; [exfalso; apply Ng1; rewrite Et; exact Fs|].
      assert (k1 = k) by (apply (one_ip k1 k d1 d0 K1 A); congruence). subst k1. assert (d1 = d0) by congruence. subst d1.
      apply (hears_answer a k d0 l d i p0 q p n j b A B S An Ip Iq Nc Kp). congruence.
Qed.
Lemma crowd_start : cwinv [].
Proof.
  split; [reflexivity|]. intros k d0 l A B. exists d0. split; [exact A|]. destruct (crowd_site k d0 A) as (l1 & El & Ho & Sm & _ & Ti & Fe). assert (l1 = l) by congruence. subst l1.
  destruct (hosts_ready d0 l Ho) as (codes & RD & DC & _). destruct Ho as (_ & _ & Li & _ & _ & Fr). split.
  - do 3 (split; [reflexivity|]). split; [lia|]. split; [eauto|]. split; [exact Li|]. split; [exact Ti|]. unfold outbox. rewrite Fr, skipn_all. constructor.
  - destruct (ln_ctl (t_node d0)) as [c|] eqn:C; [|reflexivity]. exists c. split; [reflexivity|]. unfold tabled. rewrite (Fe c eq_refl). split; [constructor|]. split; [discriminate|].
    intros i p _ (p1 & n & j & q & s & d & b & E & _). destruct p1; discriminate.
Qed.
Lemma crowd_all sched : cwinv sched.
Proof. induction sched as [|e a IH] using rev_ind; [exact crowd_start|]. apply crowd_inv. exact IH. Qed.
End Crowd.

(** ** The claims *)
Lemma found_nodes (PS : PySet) sites ls a k c : crowd sites ls -> tabled sites ls a k c ->
  NoDup (map node_ip (ctl_nodes c)) /\
  (forall nd, In nd (ctl_nodes c) -> exists i p l, nth_error sites i = Some p /\ nth_error ls i = Some l /\ told sites i k a /\ depicts nd (t_addr p) l) /\
  (forall i p l, nth_error sites i = Some p -> nth_error ls i = Some l -> told sites i k a ->
     exists nd, In nd (ctl_nodes c) /\ depicts nd (t_addr p) l /\ forall w tr, get_node w tr c (GATup (fst (t_addr p))) = Ok (Some nd)).
Proof.
  intros Cr (Nk & C1 & C2).
  assert (V : forall ip nd, In (ip, nd) (c_found c) -> exists i p l, nth_error sites i = Some p /\ nth_error ls i = Some l /\ told sites i k a /\ ip = fst (t_addr p) /\ depicts nd (t_addr p) l).
  { intros ip nd I. apply C1. apply (in_dget String.eqb seqb_eq); assumption. }
  split; [|split].
  - unfold ctl_nodes, dvals. rewrite map_map. replace (map (fun y => node_ip (snd y)) (c_found c)) with (dkeys (c_found c)); [exact Nk|].
    unfold dkeys. apply map_ext_in. intros (ip, nd) I. destruct (V ip nd I) as (i & p & l & _ & _ & _ & -> & D). symmetry. exact (depicts_ip nd _ l D).
  - intros nd I. unfold ctl_nodes, dvals in I. apply in_map_iff in I as ((ip, n1) & <- & I). destruct (V ip n1 I) as (i & p & l & A1 & A2 & A3 & _ & A5). exists i, p, l. auto.
  - intros i p l A1 A2 A3. destruct (C2 i p A1 A3) as (nd & G). exists nd. destruct (C1 _ _ G) as (i1 & p1 & l1 & B1 & B2 & B3 & B4 & B5).
    split; [apply in_map_iff; exists (fst (t_addr p), nd); split; [reflexivity|]; exact (dget_in String.eqb seqb_eq _ _ _ G)|].
    assert (i1 = i) by (apply (one_ip sites ls Cr i1 i p1 p B1 A1); congruence). subst i1. assert (p1 = p /\ l1 = l) as (-> & ->) by (split; congruence).
    split; [exact B5|]. intros w tr. rewrite get_node_tup, G. reflexivity.
Qed.

Lemma L_C125_found : forall (PS : PySet) sites ls sched k d c, crowd sites ls ->
  nth_error sites k = Some d -> ln_ctl (t_node d) = Some c ->
  exists d' c', nth_error (crowd_run sched sites) k = Some d' /\ ln_ctl (t_node d') = Some c' /\ NoDup (map node_ip (ctl_nodes c')) /\
  (* a controller has found only nodes of the network that have answered it, as they are *)
  (forall nd, In nd (ctl_nodes c') -> exists i p l, nth_error sites i = Some p /\ nth_error ls i = Some l /\
     told sites i k sched /\ depicts nd (t_addr p) l) /\
  (* and all of them *)
  (forall i p l, nth_error sites i = Some p -> nth_error ls i = Some l -> told sites i k sched ->
     exists nd, In nd (ctl_nodes c') /\ depicts nd (t_addr p) l /\ forall w tr, get_node w tr c' (GATup (fst (t_addr p))) = Ok (Some nd)).
Proof.
  intros PS sites ls sched k d c Cr K C. destruct (crowd_all sites ls Cr sched) as (_ & W). destruct (crowd_list sites ls Cr k d K) as (l & El).
  destruct (W k d l K El) as (d' & Ed & _ & S). rewrite C in S. destruct S as (c' & Ec & T). exists d', c'. split; [exact Ed|]. split; [exact Ec|]. exact (found_nodes PS sites ls sched k c' Cr T).
Qed.

Lemma L_C125_lasting : forall (PS : PySet) sites ls sched k d l, crowd sites ls ->
  nth_error sites k = Some d -> nth_error ls k = Some l ->
  exists d', nth_error (crowd_run sched sites) k = Some d' /\ t_addr d' = t_addr d /\ listens (t_node d') /\
  servers_of (t_node d') = servers_of (t_node d) /\ device_codes (dkeys (ln_objs (t_node d'))) = l /\
  (ln_ctl (t_node d) = None <-> ln_ctl (t_node d') = None).
Proof.
  intros PS sites ls sched k d l Cr K El. destruct (crowd_all sites ls Cr sched) as (_ & W).
  destruct (W k d l K El) as (d' & Ed & (_ & Ea & Es & _ & (codes & (_ & RK & _) & DC) & Li & _) & S). exists d'. rewrite RK. do 5 (split; [assumption|]).
  destruct (ln_ctl (t_node d)) as [c|]; [|tauto]. destruct S as (c' & -> & _). split; discriminate.
Qed.

Lemma L_C125_traffic : forall (PS : PySet) sites ls sched i d l p b to, crowd sites ls ->
  nth_error sites i = Some d -> nth_error ls i = Some l ->
  nth_error (crowd_run sched sites) i = Some p -> In (b, to) (outbox p) ->
  (* the search of a controller to all *)
  (to = ("224.0.23.0"%string, 3610) /\ ln_ctl (t_node d) <> None /\
   exists t, 0 < t < 65536 /\ denotes b (mkmsg t 0x0EF001 0x0EF001 0x62 [mkprop 0xD6 []] [] [] None None)) \/
  (* or an answer to a controller *)
  ((exists k d1, nth_error sites k = Some d1 /\ t_addr d1 = to /\ ln_ctl (t_node d1) <> None) /\
   exists f, denotes b f /\ m_ESV f = 0x72 /\ m_SEOJ f = 0x0EF001 /\ m_DEOJ f = 0x0EF001 /\ m_props f = [mkprop 0xD6 (zlen l :: flat_map (be 3) l)]).
Proof.
  intros PS sites ls sched i d l p b to Cr Kd El Ep I. destruct (crowd_all sites ls Cr sched) as (_ & W).
  destruct (W i d l Kd El) as (p1 & Ep1 & (_ & _ & _ & _ & _ & _ & _ & Fs) & _). assert (p1 = p) by congruence. subst p1.
  rewrite Forall_forall in Fs. destruct (Fs _ I) as [(E & (t & Ht & Eb) & Nc)|(An & X)]; cbn [fst snd] in *.
  - left. split; [exact E|]. split; [exact Nc|]. exists t. split; [exact Ht|]. split; [exact (search_frame t Ht)|]. exists []. rewrite app_nil_r. exact Eb.
  - right. split; [exact X|]. destruct An as (f & D & _ & _ & F1 & F2 & F3 & F4). exists f. auto.
Qed.

Lemma run_snoc (PS : PySet) a e sites : crowd_run (a ++ [e]) sites = crowd_step (crowd_run a sites) e.
Proof. unfold crowd_run. rewrite fold_left_app. reflexivity. Qed.
Lemma nth_next {A} (l : list A) x r : nth_error (l ++ x :: r) (length l) = Some x.
Proof. rewrite nth_error_app2 by lia. rewrite Nat.sub_diag. reflexivity. Qed.

Lemma L_C125_reach : forall (PS : PySet) sites ls sched k d c i p l j j', crowd sites ls ->
  nth_error sites k = Some d -> ln_ctl (t_node d) = Some c ->
  nth_error sites i = Some p -> nth_error ls i = Some l -> (j < servers_of (t_node p))%nat -> (j' < servers_of (t_node d))%nat ->
  (* at any time a search, one of its datagrams and one answer are enough *)
  exists n n', let x := crowd_run (sched ++ [Ask k; Pass k n i j; Pass i n' k j']) sites in
  exists d' c' nd, nth_error x k = Some d' /\ ln_ctl (t_node d') = Some c' /\ In nd (ctl_nodes c') /\ depicts nd (t_addr p) l /\
  forall w tr, get_node w tr c' (GATup (fst (t_addr p))) = Ok (Some nd).
Proof.
  intros PS sites ls sched k d c i p l j j' Cr Kd C Kp El Lj Lj'. destruct (crowd_list sites ls Cr k d Kd) as (lk & Elk).
  assert (G : exists n n', told sites i k (sched ++ [Ask k; Pass k n i j; Pass i n' k j'])).
  { destruct (crowd_all sites ls Cr sched) as (Le & W). destruct (W k d lk Kd Elk) as (d1 & Ed1 & (Eo1 & Ea1 & Es1 & Lt1 & (codes1 & (_ & _ & ii & ifs & Oi) & _) & Li1 & Ti1 & _) & T1).
    rewrite C in T1. destruct T1 as (c1 & Ec1 & _).
    destruct (ctl_search (t_os d1) (t_tr d1) (t_node d1)) as [[s2 tr2] r2] eqn:H2.
    destruct (search_sends _ _ _ c1 s2 tr2 r2 Ec1 Ti1 H2) as (snds & t & -> & Ht & Cs & _). rewrite Oi in Cs.
    assert (exists x0 xs, snds = x0 :: xs) as (x0 & xs & Es) by (inversion Cs; eauto). destruct (AnswerP.casts_all _ _ _ _ Cs x0) as (Eb & Ed0); [rewrite Es; left; reflexivity|].
    set (n := length (outbox d1)). exists n. set (a1 := sched ++ [Ask k]). set (a2 := a1 ++ [Pass k n i j]).
    set (d2 := mksite (t_os d1) (t_addr d1) s2 (t_tr d1 ++ map ev_of snds) (t_from d1)).
    assert (X1 : crowd_run a1 sites = upd (crowd_run sched sites) k d2) by (unfold a1; rewrite run_snoc; cbn [crowd_step]; rewrite Ed1, Ec1, H2; reflexivity).
    assert (N1 : nth_error (crowd_run a1 sites) k = Some d2).
    { rewrite X1, nth_upd, Nat.eqb_refl. replace (k <? _)%nat with true; [reflexivity|]. symmetry. apply Nat.ltb_lt, nth_error_Some. congruence. }
    assert (B1 : nth_error (outbox d2) n = Some (wire (set_TID t search_message), MULTICAST)).
    { unfold d2. rewrite outbox_more by exact Lt1. rewrite sent_evs, Es. cbn [map]. unfold n. rewrite nth_next, Eb, Ed0. reflexivity. }
    destruct (crowd_all sites ls Cr a1) as (_ & W1). destruct (W1 i p l Kp El) as (p1 & Ep1 & (Eo & Ea & Esv & Lt & (codes & RD & DC) & Li & _) & _).
    exists (length (outbox p1)).
    assert (exists v, server_at (t_node p1) j = Some v) as (v & V).
    { unfold server_at. destruct (nth_error (g_servers (ln_mgr (t_node p1))) j) eqn:Z; [eauto|]. exfalso. apply nth_error_None in Z. unfold servers_of in *. lia. }
    destruct (proj2 Li j v V) as (Al & Ob). destruct (crowd_site sites ls Cr i p Kp) as (l1 & El1 & (_ & _ & _ & Q & R & _) & Sm & _). assert (l1 = l) by congruence. subst l1.
    destruct (deliver (t_os p1) (t_tr p1) (t_node p1) j (wire (set_TID t search_message), t_addr d2)) as [s' tr'] eqn:H3. pose proof H3 as H4. rewrite Eo in H4.
    destruct (search_heard PS _ _ _ codes _ j _ s' tr' v Q R RD ltac:(exists t; auto) V Al Ob ltac:(rewrite DC; exact Sm) H4) as (_ & _ & _ & _ & evs & i3 & y & n3 & -> & Sn & _).
    set (p2 := mksite (t_os p1) (t_addr p1) s' (t_tr p1 ++ evs) (t_from p1)).
    assert (X2 : crowd_run a2 sites = upd (crowd_run a1 sites) i p2).
    { unfold a2. rewrite run_snoc. cbn [crowd_step]. rewrite N1, Ep1, B1. change (for_site MULTICAST p1) with true. cbn iota. unfold hears. rewrite H3. reflexivity. }
    assert (N2 : nth_error (crowd_run a2 sites) i = Some p2).
    { rewrite X2, nth_upd, Nat.eqb_refl. replace (i <? _)%nat with true; [reflexivity|]. symmetry. apply Nat.ltb_lt, nth_error_Some. congruence. }
    assert (B2 : nth_error (outbox p2) (length (outbox p1)) = Some (y, t_addr d)).
    { unfold p2. rewrite outbox_more by exact Lt. rewrite Sn. cbn [map fst snd]. rewrite nth_next. unfold send_bytes. cbn [fst snd]. change (t_addr d2) with (t_addr d1). rewrite Ea1. reflexivity. }
    exists a2, (length (outbox p1)), j', [], p2, d, y. split; [unfold a2, a1; rewrite <- !app_assoc; reflexivity|]. auto. }
  destruct G as (n & n' & T). exists n, n'. cbv zeta.
  destruct (L_C125_found PS sites ls (sched ++ [Ask k; Pass k n i j; Pass i n' k j']) k d c Cr Kd C) as (d' & c' & Ed' & Ec' & _ & _ & F). destruct (F i p l Kp El T) as (nd & F1 & F2 & F3). exists d', c', nd. auto.
Qed.
