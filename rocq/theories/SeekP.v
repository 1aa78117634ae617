(** Lemmas for C114. *)
From Verif Require Import PyBase BytesM EsvM MsgM PropM ObjM DbData DbM NodeM LocalM CtrlM
  SpecWire SpecObj SpecReq SpecDb SpecNode SpecProf SpecLocal SpecSrv SpecCtrl SpecEnd SpecLife SpecSelf SpecDisc SpecSeek
  DictP BytesP WireP CodecP ObjP MapP ReqP DbP NodeP ProfP LocalP AnswerP SrvP CtrlP EndP NetP LifeP SelfP DiscP.
From Verif Require Import SpecReq.
Require Import ZifyBool Permutation.

(** An answer leaves the counter of a controller. *)
Lemma answer_tid (PS : PySet) w tr s c l an b j v s' tr' : ln_ctl s = Some c -> is_answer l b ->
  server_at s j = Some v -> s_alive v = true -> s_obs v = [ONode] ->
  deliver w tr s j (b, an) = (s', tr') -> g_tid (ln_mgr s') = g_tid (ln_mgr s).
Proof.
  intros C (rsp & D & Bo & Lb & E1 & E2 & E3 & E5) V A O H. set (m := set_from (Some an) rsp).
  assert (Hr : received_from an m) by (exists rsp; split; [apply D|reflexivity]).
  destruct (node_received w tr s m) as [[s1 tr1] r] eqn:N. rewrite (hear_frame PS w tr s j v b an rsp s1 tr1 r V A O Bo Lb D N) in H.
  pose proof (ctl_node_received PS w tr s c an m s1 tr1 r C Hr N) as S. cbn [m set_from m_ESV] in S. rewrite E1 in S. change (is_request 0x72) with false in S.
  destruct S as (c' & _ & E). assert (X : g_tid (ln_mgr s1) = g_tid (ln_mgr s)) by (rewrite E; reflexivity).
  destruct r; [assert (s' = s1) by congruence; subst s'; exact X|]. assert (s' = kill j s1) by congruence. subst s'. rewrite <- X. unfold kill. destruct (nth_error _ _); reflexivity.
Qed.

Section Seek.
Context {PS : PySet}.
Variables (wc : os) (ac : addr) (mail : list (list Z)) (devs : list site) (ls : list (list Z)) (nc : nat) (c0 : ctl) (g0 : manager).
Definition spoke (a : list move) (k : nat) (d : site) (l : list Z) : Prop :=
  nth_error devs k = Some d /\ nth_error ls k = Some l /\ small l /\ answered (length mail) (servers_of (t_node d)) nc k a.
Definition kinv (a : list move) (x : site) : Prop :=
  t_os x = wc /\ t_addr x = ac /\ servers_of (t_node x) = nc /\ listens (t_node x) /\ ln_mgr (t_node x) = g0 /\
  exists c, ln_ctl (t_node x) = Some c /\
  forall ip, (exists k d l nd, spoke a k d l /\ ip = fst (t_addr d) /\ sget ip (c_found c) = Some nd /\ depicts nd (t_addr d) l) \/
    ((forall k d l, spoke a k d l -> ip <> fst (t_addr d)) /\ sget ip (c_found c) = sget ip (c_found c0)).
Definition kall (a : list move) (x : area) : Prop :=
  a_mail x = mail /\ kinv a (a_ctl x) /\ length (a_devs x) = length devs /\
  forall k d0 l, nth_error devs k = Some d0 -> nth_error ls k = Some l -> exists d, nth_error (a_devs x) k = Some d /\ dinv ac mail a k d0 l d.

Lemma kinv_same a e x : (forall k d l, spoke (a ++ [e]) k d l -> spoke a k d l) -> kinv a x -> kinv (a ++ [e]) x.
Proof.
  intros No (Eo & Ex & Es & Li & Tt & c & Cc & K). do 5 (split; [assumption|]). exists c. split; [exact Cc|]. intros ip. destruct (K ip) as [(k & d & l & nd & (A1 & A2 & A3 & A4) & B)|(N & E)].
  - left. exists k, d, l, nd. split; [|exact B]. do 3 (split; [assumption|]). apply answered_app. left. exact A4.
  - right. split; [|exact E]. intros k d l S. exact (N k d l (No k d l S)).
Qed.
Lemma kinv_hears a k j i d0 l d b x : nth_error devs k = Some d0 -> nth_error ls k = Some l -> NoDup (map (fun d => fst (t_addr d)) devs) ->
  quiet wc -> hosts d0 l -> NoDup (0x0EF001 :: l) -> dinv ac mail a k d0 l d -> kinv a x -> nth_error (mailed ac d) i = Some b ->
  kinv (a ++ [GoAnswer k j i]) (hears x j b (t_addr d)).
Proof.
  intros Kd Kl NDi Q (_ & Rg & _) ND (_ & Ea & _ & _ & _ & _ & _ & Fa & Ln) C Mb. pose proof C as (Eo & Ex & Es & Li & Tt & c & Cc & K).
  assert (Lm : (i < length (mailed ac d))%nat) by (apply nth_error_Some; rewrite Mb; discriminate).
  assert (An : is_answer l b) by (rewrite Forall_forall in Fa; apply Fa; eapply nth_error_In; exact Mb).
  assert (Sm : small l). { unfold small. destruct (Z.leb_spec (zlen l) 84) as [B|B]; [exact B|]. rewrite Ln in Lm. lia. }
  assert (Li2 : (i < searches (length mail) (servers_of (t_node d0)) k a)%nat). { rewrite Ln in Lm. replace (zlen l <=? 84) with true in Lm by (unfold small in Sm; lia). exact Lm. }
  unfold hears. destruct (deliver (t_os x) (t_tr x) (t_node x) j (b, t_addr d)) as [s' tr'] eqn:H.
  destruct (server_at (t_node x) j) as [v|] eqn:V.
  2:{ assert (X : deliver (t_os x) (t_tr x) (t_node x) j (b, t_addr d) = (t_node x, t_tr x)) by (apply kill_dead; rewrite V; exact I).
      assert (s' = t_node x /\ tr' = t_tr x) as (-> & ->) by (split; congruence). replace (mksite _ _ _ _ _) with x by (destruct x; reflexivity).
      assert (Lj : ~ (j < nc)%nat). { rewrite <- Es. intros Z. apply nth_error_Some in Z. apply Z. exact V. }
      apply kinv_same; [|exact C]. intros k1 d1 l1 (A1 & A2 & A3 & A4). do 3 (split; [assumption|]). apply answered_app in A4. destruct A4 as [A4|(j1 & i1 & E & A4 & _)]; [exact A4|]. injection E as <- <- <-. contradiction. }
  assert (Lj : (j < nc)%nat). { rewrite <- Es. apply nth_error_Some. unfold server_at in V. rewrite V. discriminate. }
  destruct (proj2 Li j v V) as (Al & Ob). rewrite Eo in H.
  destruct (controller_hears PS wc (t_tr x) (t_node x) c l (t_addr d) b j v s' tr' Q Cc An Sm ND Rg V Al Ob H) as (G & c' & Cc' & _ & Fo & nd & Fn & Dn).
  pose proof (answer_tid PS wc (t_tr x) (t_node x) c l (t_addr d) b j v s' tr' Cc An V Al Ob H) as Tn.
  rewrite Ea in *.
  assert (An1 : answered (length mail) (servers_of (t_node d0)) nc k (a ++ [GoAnswer k j i])) by (apply answered_app; right; eauto).
  split; [exact Eo|]. split; [exact Ex|]. cbn [t_node]. split; [unfold servers_of in *; rewrite G; exact Es|]. split; [exact (listens_same _ _ G Li)|]. split; [rewrite <- Tt; destruct (ln_mgr s'), (ln_mgr (t_node x)); cbn in G, Tn; congruence|].
  exists c'. split; [exact Cc'|]. intros ip. destruct (string_dec ip (fst (t_addr d0))) as [->|Ni].
  - left. exists k, d0, l, nd. split; [do 3 (split; [assumption|]); exact An1|]. auto.
  - rewrite (Fo ip Ni). destruct (K ip) as [(k1 & d1 & l1 & n1 & (A1 & A2 & A3 & A4) & B)|(N & E)].
    + left. exists k1, d1, l1, n1. split; [|exact B]. do 3 (split; [assumption|]). apply answered_app. left. exact A4.
    + right. split; [|exact E]. intros k1 d1 l1 (A1 & A2 & A3 & A4). apply answered_app in A4. destruct A4 as [A4|(j1 & i1 & X & _)]; [apply (N k1 d1 l1); do 3 (split; [assumption|]); exact A4|].
      injection X as <- <- <-. assert (d1 = d0) by congruence. subst d1. exact Ni.
Qed.

Hypothesis (Qc : quiet wc) (Hmail : Forall the_search mail) (Hd : Forall2 hosts devs ls) (Hip : NoDup (map (fun d => fst (t_addr d)) devs)).
Lemma kall_step a e x : kall a x -> kall (a ++ [e]) (area_step x e).
Proof.
  intros (M & C & L & D). destruct e as [k j i|k j i].
  - assert (C' : kinv (a ++ [GoSearch k j i]) (a_ctl x)).
    { apply kinv_same; [|exact C]. intros k1 d1 l1 (A1 & A2 & A3 & A4). do 3 (split; [assumption|]). apply answered_app in A4. destruct A4 as [A4|(j1 & i1 & E & _)]; [exact A4|discriminate]. }
    assert (K : forall k0 d0 l d, k0 <> k -> dinv ac mail a k0 d0 l d -> dinv ac mail (a ++ [GoSearch k j i]) k0 d0 l d).
    { intros k0 d0 l d Nk. apply dinv_other. unfold searches. cbn [filter]. replace (k =? k0)%nat with false by (symmetry; apply Nat.eqb_neq; congruence). reflexivity. }
    cbn [area_step]. destruct (nth_error (a_devs x) k) as [d|] eqn:Kd.
    2:{ split; [exact M|]. split; [exact C'|]. split; [exact L|]. intros k0 d0 l E1 E2. destruct (D k0 d0 l E1 E2) as (d & Ed & Dd). exists d. split; [exact Ed|]. apply K; [congruence|exact Dd]. }
    destruct (nth_error (a_mail x) i) as [b|] eqn:Mb; rewrite M in Mb.
    2:{ split; [exact M|]. split; [exact C'|]. split; [exact L|]. intros k0 d0 l E1 E2. destruct (D k0 d0 l E1 E2) as (d1 & Ed & Dd). exists d1. split; [exact Ed|].
        apply dinv_other; [|exact Dd]. unfold searches. cbn [filter]. replace (i <? length mail)%nat with false by (symmetry; apply Nat.ltb_ge, nth_error_None; exact Mb). rewrite andb_false_r. reflexivity. }
    split; [exact M|]. split; [exact C'|]. cbn [a_devs a_ctl]. split; [rewrite upd_length; exact L|]. intros k0 d0 l E1 E2. rewrite nth_upd. destruct (D k0 d0 l E1 E2) as (d1 & Ed & Dd).
    destruct (Nat.eqb_spec k0 k) as [->|Nk].
    + assert (d1 = d) by congruence. subst d1. exists (hears d j b (t_addr (a_ctl x))). split.
      * replace (k <? length (a_devs x))%nat with true; [reflexivity|]. symmetry. apply Nat.ltb_lt, nth_error_Some. rewrite Kd. discriminate.
      * rewrite (proj1 (proj2 C)). destruct (hosted devs ls Hd Hip k d0 E1) as (l1 & El & Ho). assert (l1 = l) by congruence. subst l1.
        apply device_step; [exact Ho|exact Dd| |exact Mb]. rewrite Forall_forall in Hmail. apply Hmail. eapply nth_error_In. exact Mb.
    + exists d1. split; [exact Ed|]. apply K; assumption.
  - assert (K : forall k0 d0 l, nth_error devs k0 = Some d0 -> nth_error ls k0 = Some l -> exists d, nth_error (a_devs x) k0 = Some d /\ dinv ac mail (a ++ [GoAnswer k j i]) k0 d0 l d).
    { intros k0 d0 l E1 E2. destruct (D k0 d0 l E1 E2) as (d & Ed & Dd). exists d. split; [exact Ed|]. apply dinv_other; [reflexivity|exact Dd]. }
    cbn [area_step]. destruct (nth_error (a_devs x) k) as [d|] eqn:Kd.
    2:{ split; [exact M|]. split; [|split; [exact L|exact K]]. apply kinv_same; [|exact C]. intros k1 d1 l1 (A1 & A2 & A3 & A4). do 3 (split; [assumption|]). apply answered_app in A4. destruct A4 as [A4|(j1 & i1 & E & _)]; [exact A4|].
        injection E as <- <- <-. destruct (D k d1 l1 A1 A2) as (d & Ed & _). congruence. }
    assert (exists d0, nth_error devs k = Some d0) as (d0 & E1).
    { destruct (nth_error devs k) as [d0|] eqn:E; [eauto|]. exfalso. apply nth_error_None in E. rewrite <- L in E. apply nth_error_None in E. congruence. }
    destruct (hosted devs ls Hd Hip k d0 E1) as (l & E2 & Ho). destruct (D k d0 l E1 E2) as (d' & Ed & Dd). assert (d' = d) by congruence. subst d'.
    rewrite (proj1 (proj2 C)). destruct (nth_error (mailed ac d) i) as [b|] eqn:Mb.
    + split; [exact M|]. split; [|split; [exact L|exact K]]. cbn [a_ctl]. destruct (hosts_ready d0 l Ho) as (codes & _ & _ & ND).
      exact (kinv_hears a k j i d0 l d b (a_ctl x) E1 E2 Hip Qc Ho ND Dd C Mb).
    + split; [exact M|]. split; [|split; [exact L|exact K]]. apply kinv_same; [|exact C]. intros k1 d1 l1 (F1 & F2 & Sm & A4). do 3 (split; [assumption|]). apply answered_app in A4. destruct A4 as [A4|(j1 & i1 & E & _ & Hi)]; [exact A4|].
      injection E as <- <- <-. exfalso.
      assert (d1 = d0 /\ l1 = l) as (-> & ->) by (split; congruence). destruct Dd as (_ & _ & _ & _ & _ & _ & _ & _ & Ln). apply nth_error_None in Mb. rewrite Ln in Mb.
      replace (zlen l <=? 84) with true in Mb by (unfold small in Sm; lia). lia.
Qed.
Lemma kall_run sched : forall x, kall [] x -> kall sched (area_run sched x).
Proof.
  induction sched as [|e a IH] using rev_ind; intros x H; [exact H|]. unfold area_run. rewrite fold_left_app. cbn [fold_left]. apply kall_step. apply IH. exact H.
Qed.
End Seek.

Lemma search_keeps w tr s c s' tr' r : ln_ctl s = Some c -> 0 <= g_tid (ln_mgr s) <= 65535 -> ctl_search w tr s = (s', tr', r) -> 0 <= g_tid (ln_mgr s') <= 65535.
Proof.
  intros C T H. unfold ctl_search in H. destruct (local_announce_ok w tr s search_message) as (g' & t & S & _ & X & _). destruct X as (snds & m' & r1 & Q & _); [exact search_encodable|].
  rewrite Q in H. assert (s' = set_ln_mgr g' s) as -> by congruence. unfold stamped in S. change (m_TID search_message =? 0) with true in S. cbn iota in S. rewrite next_tid_spec in S by exact T.
  assert (g' = mkmgr (g_tid (ln_mgr s) mod 65535 + 1) (g_servers (ln_mgr s))) as -> by congruence. change (0 <= g_tid (ln_mgr s) mod 65535 + 1 <= 65535). pose proof (Z.mod_pos_bound (g_tid (ln_mgr s)) 65535). lia.
Qed.

(** One search. *)
Definition seeker (s0 s : lnode) : Prop := servers_of s = servers_of s0 /\ open_ifs s = open_ifs s0 /\ listens s /\ 0 <= g_tid (ln_mgr s) <= 65535 /\ exists c, ln_ctl s = Some c.
Definition shows (s : lnode) (ip : string) (o : option node) : Prop := exists c, ln_ctl s = Some c /\ sget ip (c_found c) = o.
Lemma seek_one (PS : PySet) w a s0 s tr r : quiet w -> reliable w -> seeker s0 s -> round_ok r -> let st := one_search w a (s, tr) r in
  seeker s0 (fst st) /\
  forall ip, (exists a1 l nd, replies s0 r ip a1 l /\ shows (fst st) ip (Some nd) /\ depicts nd a1 l) \/
    ((forall a1 l, ~ replies s0 r ip a1 l) /\ forall o, shows s ip o -> shows (fst st) ip o).
Proof.
  intros Q R (Es & Eo & Li & T & c & C) (Ni & Hd). unfold one_search. cbn [fst snd]. destruct (ctl_search w tr s) as [[s1 tr1] rc] eqn:Se.
  destruct (search_mail w tr s c s1 tr1 rc C T Se) as (Fm & G & C1 & Lm). specialize (Lm R). pose proof (search_keeps w tr s c s1 tr1 rc C T Se) as T1.
  change (reach MULTICAST (since tr tr1)) with (reach ("224.0.23.0"%string, 3610) (since tr tr1)) in *. set (mail := reach ("224.0.23.0"%string, 3610) (since tr tr1)) in *.
  assert (S0 : servers_of s1 = servers_of s0) by (unfold servers_of in *; rewrite G; exact Es).
  assert (K : kall w a mail (r_devs r) (r_lists r) (servers_of s0) c (ln_mgr s1) (r_sched r) (area_run (r_sched r) (mkarea (mksite w a s1 tr1 (length tr1)) mail (r_devs r)))).
  { apply kall_run; [exact Q|exact Fm|exact Hd|exact Ni|]. split; [reflexivity|]. split; [|split; [reflexivity|]].
    - cbn [a_ctl]. split; [reflexivity|]. split; [reflexivity|]. cbn [t_node]. split; [exact S0|]. split; [exact (listens_same _ _ G Li)|]. split; [reflexivity|]. exists c. split; [exact C1|].
      intros ip. right. split; [|reflexivity]. intros k d l (_ & _ & _ & p & j & i & q & E & _). destruct p; discriminate.
    - intros k d0 l E1 E2. exists d0. split; [exact E1|]. assert (Ho : hosts d0 l).
      { destruct (hosted _ _ Hd Ni k d0 E1) as (l1 & El & Ho). assert (l1 = l) by congruence. subst l1. exact Ho. }
      destruct (hosts_ready d0 l Ho) as (codes & RD & DC & _). destruct Ho as (_ & _ & Ld & _ & _ & Fr).
      split; [reflexivity|]. split; [reflexivity|]. split; [reflexivity|]. split; [lia|]. split; [eauto|]. split; [intros _; exact Ld|]. split; [intros j v V; exact (proj2 (proj2 Ld j v V))|].
      unfold mailed. rewrite Fr, skipn_all. cbn. split; [constructor|]. destruct (zlen l <=? 84); reflexivity. }
  destruct K as (_ & (_ & _ & Ex & Lx & Gx & c' & C' & K) & _). cbv zeta. cbn [fst]. set (x := area_run _ _) in *. split.
  - split; [exact Ex|]. split; [unfold open_ifs in *; rewrite Gx, G; exact Eo|]. split; [exact Lx|]. split; [rewrite Gx; exact T1|eauto].
  - assert (Y : forall ip a1 l, replies s0 r ip a1 l <-> exists k d, spoke mail (r_devs r) (r_lists r) (servers_of s0) (r_sched r) k d l /\ t_addr d = a1 /\ ip = fst (t_addr d)).
    { intros ip a1 l. unfold replies, spoke, small. rewrite <- Eo, <- Lm. split.
      - intros (k & d & A1 & A2 & A3 & A4 & A5 & A6). exists k, d. subst a1. auto 10.
      - intros (k & d & (A1 & A2 & A3 & A4) & B1 & B2). exists k, d. subst a1. auto 10. }
    intros ip. destruct (K ip) as [(k & d & l & nd & Sp & E & Sh & De)|(N & E)].
    + left. exists (t_addr d), l, nd. split; [apply Y; eauto|]. split; [exists c'; auto|exact De].
    + right. split.
      * intros a1 l Z. apply Y in Z as (k & d & Sp & _ & X). exact (N k d l Sp X).
      * intros o (c1 & X1 & X2). exists c'. split; [exact C'|]. rewrite E. congruence.
Qed.
Lemma seek_all (PS : PySet) w a s0 : quiet w -> reliable w -> forall rs s tr, seeker s0 s -> Forall round_ok rs -> let st := search_again w a rs (s, tr) in
  seeker s0 (fst st) /\
  forall ip, (forall before r after a1 l, rs = before ++ r :: after -> replies s0 r ip a1 l -> (forall r' a2 l2, In r' after -> ~ replies s0 r' ip a2 l2) ->
      exists nd, shows (fst st) ip (Some nd) /\ depicts nd a1 l) /\
    ((forall r a1 l, In r rs -> ~ replies s0 r ip a1 l) -> forall o, shows s ip o -> shows (fst st) ip o).
Proof.
  intros Q R rs. induction rs as [|r rs IH] using rev_ind; intros s tr Sk F.
  - split; [exact Sk|]. intros ip. split; [|auto]. intros [|b before] r after a1 l E; discriminate.
  - apply Forall_app in F as (F & Fr). apply Forall_inv in Fr. destruct (IH s tr Sk F) as (S1 & K1). unfold search_again. rewrite fold_left_app. cbn [fold_left].
    fold (search_again w a rs (s, tr)). destruct (search_again w a rs (s, tr)) as [s1 tr1]. cbn [fst] in S1, K1.
    destruct (seek_one PS w a s0 s1 tr1 r Q R S1 Fr) as (S2 & K2). split; [exact S2|]. intros ip. split.
    + intros before r1 after a1 l E Re No. destruct (exists_last (l := r1 :: after)) as (q & z & Z); [discriminate|]. rewrite Z in E. rewrite app_assoc in E. apply app_inj_tail in E as (E & <-).
      destruct q as [|y q].
      * assert (r1 = r /\ after = []) as (-> & ->) by (split; [|destruct after; [reflexivity|]]; cbn in Z; congruence).
        destruct (K2 ip) as [(a2 & l2 & nd & R2 & Sh & De)|(N & _)]; [|exfalso; exact (N _ _ Re)]. exists nd. split; [exact Sh|].
        destruct R2 as (k2 & d2 & A1 & A2 & A3 & A4 & A5 & A6). destruct Re as (k1 & d1 & B1 & B2 & B3 & B4 & B5 & B6). destruct Fr as (Ni & _).
        assert (k2 = k1).
        { apply (proj1 (NoDup_nth_error _) Ni k2 k1); [rewrite map_length; apply nth_error_Some; congruence|]. rewrite !nth_error_map, A1, B1. cbn [option_map]. congruence. }
        subst k2. assert (d2 = d1 /\ l2 = l) as (-> & ->) by (split; congruence). replace a1 with a2 by congruence. exact De.
      * cbn in Z. injection Z as <- Z. assert (Ir : In r after) by (rewrite Z; apply in_or_app; right; now left).
        destruct (K2 ip) as [(a2 & l2 & nd & R2 & _)|(_ & K)]; [exfalso; exact (No r a2 l2 Ir R2)|].
        destruct (proj1 (K1 ip) before r1 q a1 l E Re) as (nd & Sh & De).
        { intros r' a2 l2 I. apply No. rewrite Z. apply in_or_app. now left. }
        exists nd. split; [exact (K _ Sh)|exact De].
    + intros No o Sh. destruct (K2 ip) as [(a2 & l2 & nd & R2 & _)|(_ & K)].
      * exfalso. apply (No r a2 l2); [apply in_or_app; right; now left|exact R2].
      * apply K. apply (proj2 (K1 ip)); [|exact Sh]. intros r' a1 l I. apply No. apply in_or_app. now left.
Qed.

Lemma L_C114_again : forall (PS : PySet) w a s c tr rs, quiet w -> reliable w -> ln_ctl s = Some c -> 0 <= g_tid (ln_mgr s) <= 65535 -> listens s -> Forall round_ok rs ->
  let s' := fst (search_again w a rs (s, tr)) in
  exists c', ln_ctl s' = Some c' /\ listens s' /\
  (* a node is shown as it answered the last search that it answered *)
  (forall before r after ip a1 l, rs = before ++ r :: after -> replies s r ip a1 l -> (forall r' a2 l2, In r' after -> ~ replies s r' ip a2 l2) ->
     exists nd, (forall w tr, get_node w tr c' (GATup ip) = Ok (Some nd)) /\ depicts nd a1 l) /\
  (* and the others as before *)
  (forall ip, (forall r a1 l, In r rs -> ~ replies s r ip a1 l) -> forall w tr, get_node w tr c' (GATup ip) = get_node w tr c (GATup ip)).
Proof.
  intros PS w a s c tr rs Q R C T Li F s'. destruct (seek_all PS w a s Q R rs s tr) as ((_ & _ & L' & _ & c' & C') & K); [split; [reflexivity|]; split; [reflexivity|]; split; [exact Li|]; split; [exact T|eauto]|exact F|].
  exists c'. split; [exact C'|]. split; [exact L'|]. split.
  - intros before r after ip a1 l E Re No. destruct (proj1 (K ip) before r after a1 l E Re No) as (nd & (c1 & X1 & X2) & De). exists nd. split; [|exact De].
    intros w1 tr1. rewrite get_node_tup. assert (c1 = c') by congruence. subst c1. now rewrite X2.
  - intros ip No w1 tr1. rewrite !get_node_tup. destruct (proj2 (K ip) No (sget ip (c_found c))) as (c1 & X1 & X2); [exists c; auto|]. assert (c1 = c') by congruence. subst c1. now rewrite X2.
Qed.

(** Finding: a node that has left is shown for ever. *)
Lemma L_C114_left_refuted : forall (PS : PySet) w a s c tr before r after ip a1 l, quiet w -> reliable w -> ln_ctl s = Some c -> 0 <= g_tid (ln_mgr s) <= 65535 -> listens s ->
  Forall round_ok (before ++ r :: after) -> replies s r ip a1 l ->
  (* it is not on the network of any later search *)
  (forall r' d, In r' after -> In d (r_devs r') -> fst (t_addr d) <> ip) ->
  exists c' nd, ln_ctl (fst (search_again w a (before ++ r :: after) (s, tr))) = Some c' /\
  depicts nd a1 l /\ forall w tr, get_node w tr c' (GATup ip) = Ok (Some nd).
Proof.
  intros PS w a s c tr before r after ip a1 l Q R C T Li F Re No. destruct (L_C114_again PS w a s c tr (before ++ r :: after) Q R C T Li F) as (c' & C' & _ & K & _).
  destruct (K before r after ip a1 l eq_refl Re) as (nd & G & De).
  { intros r' a2 l2 I (k & d & A1 & _ & A3 & A4 & _). apply (No r' d I); [exact (nth_error_In _ _ A1)|congruence]. }
  exists c', nd. auto.
Qed.
