(** Lemmas for C69, C70. *)
From Verif Require Import PyBase BytesM EsvM MsgM PropM ObjM DbData DbM NodeM LocalM CtrlM
  SpecWire SpecObj SpecReq SpecDb SpecNode SpecProf SpecLocal SpecSrv SpecCtrl SpecEnd SpecNet SpecLife DictP BytesP WireP CodecP ObjP MapP ReqP DbP NodeP ProfP LocalP AnswerP SrvP CtrlP EndP NetP.
From Verif Require Import SpecReq.
Require Import ZifyBool.

Definition live (l : list server) : list socket := flat_map (fun v => if s_open v then [(s_uni v, s_if v)] else []) l.
Definition books (s : lnode) (tr : trace) : Prop := forall k, times k (opened tr) = (times k (closed tr) + times k (live (g_servers (ln_mgr s))))%nat.
Definition frames (ifs : list string) (l : list send) : Prop := Forall (fun x => In (fst (fst (fst x))) ifs /\ exists m, encodable m /\ send_bytes x = wire m) l.
(** Steps that do not touch sockets. *)
Definition sends_only (s s' : lnode) (evs : trace) : Prop :=
  opened evs = [] /\ closed evs = [] /\ live (g_servers (ln_mgr s')) = live (g_servers (ln_mgr s)) /\ frames (open_ifs s) (sent evs).

Lemma opened_app a b : opened (a ++ b) = opened a ++ opened b. Proof. apply flat_map_app. Qed.
Lemma closed_app a b : closed (a ++ b) = closed a ++ closed b. Proof. apply flat_map_app. Qed.
Lemma times_app k a b : times k (a ++ b) = (times k a + times k b)%nat. Proof. apply count_occ_app. Qed.
Lemma open_live s i : In i (open_ifs s) -> (0 < times (true, i) (live (g_servers (ln_mgr s))))%nat.
Proof.
  unfold open_ifs. intros H. apply count_occ_In. apply in_map_iff in H as (v & <- & H). apply filter_In in H as (H & U). apply andb_prop in U as (U & O).
  unfold live. apply in_flat_map. exists v. split; [exact H|]. rewrite U, O. now left.
Qed.

Lemma lawful_app tr evs : lawful tr ->
  (forall before i b d r later, evs = before ++ EvSend i b d r :: later ->
    (times (true, i) (closed (tr ++ before)) < times (true, i) (opened (tr ++ before)))%nat /\ exists m, encodable m /\ b = wire m) ->
  lawful (tr ++ evs).
Proof.
  intros L K before i b d r later E. apply app_eq_app in E as (l & [(E1 & E2)|(E1 & E2)]).
  - destruct l as [|e l]; cbn [app] in E2.
    + rewrite app_nil_r in E1. subst before. destruct (K [] i b d r later) as (A & B); [cbn; symmetry; exact E2|]. rewrite app_nil_r in A. auto.
    + injection E2 as <- E2. exact (L before i b d r l E1).
  - subst before. exact (K l i b d r later E2).
Qed.

Lemma sends_only_ok s s' tr evs : lawful tr -> books s tr -> sends_only s s' evs -> lawful (tr ++ evs) /\ books s' (tr ++ evs).
Proof.
  intros L B (O & C & V & F). split.
  - apply lawful_app; [exact L|]. intros before i b d r later E. rewrite E in O, C, F.
    rewrite opened_app in O. rewrite closed_app in C. apply app_eq_nil in O as (O & _). apply app_eq_nil in C as (C & _).
    rewrite closed_app, opened_app, O, C, !app_nil_r. rewrite (B (true, i)).
    rewrite sent_app in F. apply Forall_app in F as (_ & F). cbn [sent flat_map app] in F. inversion F as [|y l (I & M) _]; subst. cbn [fst] in I. pose proof (open_live s i I). split; [lia|exact M].
  - intros k. rewrite opened_app, closed_app, O, C, !app_nil_r, V. apply B.
Qed.

Lemma no_sends_only s s' tr : g_servers (ln_mgr s') = g_servers (ln_mgr s) -> lawful tr -> books s tr -> lawful tr /\ books s' tr.
Proof. intros E L B. split; [exact L|]. intros k. rewrite E. apply B. Qed.

Lemma evs_plain l : opened (map ev_of l) = [] /\ closed (map ev_of l) = [].
Proof. induction l as [|[[[? ?] ?] ?] l (A & B)]; [split; reflexivity|]. cbn. auto. Qed.
Lemma obj_plain c m l : Forall (obj_event c m) l -> opened l = [] /\ closed l = [].
Proof. intros F. induction F as [|e l (n & ->) _ (A & B)]; [split; reflexivity|]. cbn. auto. Qed.
Lemma listener_plain l : Forall listener_event l -> opened l = [] /\ closed l = [].
Proof. intros F. induction F as [|e l H _ (A & B)]; [split; reflexivity|]. destruct e; try contradiction; cbn; auto. Qed.

Lemma tries_frames b d ifs l m : tries b d ifs l -> encodable m -> b = wire m -> frames ifs l.
Proof.
  intros T E ->. unfold frames. assert (W : exists q, encodable q /\ wire m = wire q) by eauto. induction T as [|i ifs n Hn|i ifs e|i ifs n l Hn T IH].
  - constructor.
  - constructor; [|constructor]. split; [now left|exact W].
  - constructor; [|constructor]. split; [now left|exact W].
  - constructor; [split; [now left|exact W]|]. eapply Forall_impl; [|exact IH]. intros x (I & M). split; [now right|exact M].
Qed.
Lemma casts_frames b d ifs l m : casts b d ifs l -> encodable m -> b = wire m -> frames ifs l.
Proof.
  intros T E ->. unfold frames. assert (W : exists q, encodable q /\ wire m = wire q) by eauto. induction T as [|i ifs e|i ifs n l T IH].
  - constructor.
  - constructor; [|constructor]. split; [now left|exact W].
  - constructor; [split; [now left|exact W]|]. eapply Forall_impl; [|exact IH]. intros x (I & M). split; [now right|exact M].
Qed.
Lemma encodable_stamp t q m : encodable m -> encodable (set_TID t (set_SEOJ q m)).
Proof. intros E. exact E. Qed.

Lemma only_refl s evs : sent evs = [] -> opened evs = [] -> closed evs = [] -> sends_only s s evs.
Proof. intros A B C. split; [exact B|]. split; [exact C|]. split; [reflexivity|]. rewrite A. constructor. Qed.
Lemma only_trans s1 s2 s3 e1 e2 : sends_only s1 s2 e1 -> open_ifs s2 = open_ifs s1 -> sends_only s2 s3 e2 -> sends_only s1 s3 (e1 ++ e2).
Proof.
  intros (A1 & B1 & C1 & D1) E (A2 & B2 & C2 & D2). split; [rewrite opened_app, A1, A2; reflexivity|]. split; [rewrite closed_app, B1, B2; reflexivity|].
  split; [congruence|]. rewrite sent_app. apply Forall_app. split; [exact D1|]. rewrite <- E. exact D2.
Qed.
Lemma only_servers s s' s'' evs : g_servers (ln_mgr s'') = g_servers (ln_mgr s') -> sends_only s s' evs -> sends_only s s'' evs.
Proof. intros E (A & B & C & D). split; [exact A|]. split; [exact B|]. split; [rewrite E; exact C|exact D]. Qed.


Lemma local_send_only w tr s m a s' tr' m' r : local_send w tr s m a = (s', tr', m', r) ->
  exists evs, tr' = tr ++ evs /\ sends_only s s' evs /\ g_servers (ln_mgr s') = g_servers (ln_mgr s).
Proof.
  intros H. destruct a as [a|].
  - destruct (local_send_ok w tr s m a) as (g' & t & _ & G & K1 & K2). destruct (encodable_dec m) as [E|E].
    + destruct (K1 E) as (snds & m1 & r1 & Q & (T & _) & _). rewrite Q in H. injection H as <- <- <- <-. exists (map ev_of snds). split; [reflexivity|]. split; [|exact G].
      destruct (evs_plain snds) as (A & B). split; [exact A|]. split; [exact B|]. split; [cbn [ln_mgr set_ln_mgr]; rewrite G; reflexivity|]. rewrite sent_evs.
      eapply tries_frames; [exact T| |reflexivity]. exact E.
    + destruct (K2 E) as (m1 & Q). rewrite Q in H. injection H as <- <- <- <-. exists []. rewrite app_nil_r. split; [reflexivity|]. split; [|exact G].
      eapply only_servers; [exact G|]. apply only_refl; reflexivity.
  - unfold local_send, mgr_send in H. set (m0 := match ln_ctl s with None => m | Some _ => _ end) in H. destruct (assign_stamped (ln_mgr s) m0) as (g' & t & A & _ & G). rewrite A in H.
    assert (N : forall l tr q, send_loop w tr l q None = (tr, q, Ok false)) by (intros l; induction l as [|v l IH]; intros tr0 q; cbn [send_loop server_send]; [reflexivity|destruct (s_uni v); apply IH]).
    rewrite N in H. injection H as <- <- <- <-. exists []. rewrite app_nil_r. split; [reflexivity|]. split; [|exact G]. eapply only_servers; [exact G|]. apply only_refl; reflexivity.
Qed.
Lemma local_announce_only w tr s m s' tr' m' r : local_announce w tr s m = (s', tr', m', r) ->
  exists evs, tr' = tr ++ evs /\ sends_only s s' evs /\ g_servers (ln_mgr s') = g_servers (ln_mgr s).
Proof.
  intros H. destruct (local_announce_ok w tr s m) as (g' & t & _ & G & K1 & K2). destruct (encodable_dec m) as [E|E].
  - destruct (K1 E) as (snds & m1 & r1 & Q & (T & _) & _). rewrite Q in H. injection H as <- <- <- <-. exists (map ev_of snds). split; [reflexivity|]. split; [|exact G].
    destruct (evs_plain snds) as (A & B). split; [exact A|]. split; [exact B|]. split; [cbn [ln_mgr set_ln_mgr]; rewrite G; reflexivity|]. rewrite sent_evs.
    eapply casts_frames; [exact T| |reflexivity]. exact E.
  - destruct (K2 E) as (m1 & Q). rewrite Q in H. injection H as <- <- <- <-. exists []. rewrite app_nil_r. split; [reflexivity|]. split; [|exact G].
    eapply only_servers; [exact G|]. apply only_refl; reflexivity.
Qed.

Lemma node_received_only (PS : PySet) w tr s a m s' tr' r : received_from a m -> node_received w tr s m = (s', tr', r) ->
  exists evs, tr' = tr ++ evs /\ sends_only s s' evs.
Proof.
  intros Hm H. destruct (node_received_spec w tr s a m Hm) as (s1 & evs & r1 & E & L & C).
  pose proof (node_keeps_servers PS w tr s a m s' tr' r Hm H) as G. rewrite E in H. injection H as -> <- ->. exists evs. split; [reflexivity|].
  eapply only_servers; [exact G|]. assert (Lv : sends_only s s evs); [|exact Lv].
  assert (D : (ln_ctl s = None \/ is_request (m_ESV m) = true) \/ (ln_ctl s <> None /\ is_request (m_ESV m) = false)).
  { destruct (ln_ctl s); [|auto]. destruct (is_request (m_ESV m)); [auto|]. right. split; [discriminate|reflexivity]. }
  destruct D as [D|[D1 D2]].
  2:{ destruct (C D1 D2) as (F & _). destruct (listener_plain _ F). apply only_refl; [exact (listener_events_sent _ F)|assumption..]. }
  specialize (L D). unfold local_spec in L. destruct (zget (m_DEOJ m) (ln_objs s)) as [o|]; [|destruct L as (_ & -> & _); apply only_refl; reflexivity].
  destruct L as (oe & sn & -> & F & L). destruct (obj_plain _ _ _ F) as (P1 & P2). destruct (evs_plain sn) as (P3 & P4).
  split; [rewrite opened_app, P1, P3; reflexivity|]. split; [rewrite closed_app, P2, P4; reflexivity|]. split; [reflexivity|].
  rewrite sent_app, (obj_events_sent _ _ _ F), sent_evs. cbn [app].
  destruct L as [(-> & _)|L]; [constructor|]. destruct (obj_message_received o m) as [[o' t] x]. destruct L as (_ & g' & _ & _ & L).
  destruct x as [[rsp|]|e]; [|destruct L as (-> & _); constructor..]. destruct L as (t1 & _ & [(En & M & _)|(_ & -> & _)]); [|constructor].
  cbv zeta in M. destruct (m_ESV rsp =? 0x73); [refine (casts_frames _ _ _ _ _ M _ eq_refl)|refine (tries_frames _ _ _ _ _ M _ eq_refl)]; exact En.
Qed.
Lemma notify_only (PS : PySet) w a m l : received_from a m -> forall tr s s' tr' r, notify w tr s l m = (s', tr', r) ->
  exists evs, tr' = tr ++ evs /\ sends_only s s' evs.
Proof.
  intros Hm. induction l as [|o l IH]; intros tr s s' tr' r H; cbn [notify] in H.
  - injection H as <- <- <-. exists []. rewrite app_nil_r. split; [reflexivity|]. apply only_refl; reflexivity.
  - destruct (tell w tr s o m) as [[s1 tr1] r1] eqn:T.
    assert (A : g_servers (ln_mgr s1) = g_servers (ln_mgr s) /\ exists evs, tr1 = tr ++ evs /\ sends_only s s1 evs).
    { destruct o as [|n|]; cbn [tell] in T.
      - split; [exact (node_keeps_servers PS _ _ _ _ _ _ _ _ Hm T)|exact (node_received_only PS _ _ _ _ _ _ _ _ Hm T)].
      - unfold call in T. injection T as <- <- _. split; [reflexivity|]. eexists. split; [reflexivity|]. apply only_refl; reflexivity.
      - injection T as <- <- _. split; [reflexivity|]. exists []. rewrite app_nil_r. split; [reflexivity|]. apply only_refl; reflexivity. }
    destruct A as (G1 & evs & -> & A1). destruct r1 as [u|e].
    + destruct (IH _ _ _ _ _ H) as (evs2 & -> & B1). exists (evs ++ evs2). rewrite app_assoc. split; [reflexivity|].
      eapply only_trans; [exact A1| |exact B1]. unfold open_ifs. rewrite G1. reflexivity.
    + injection H as <- <- _. exists evs. auto.
Qed.
Lemma live_shape s s' : shape s' = shape s -> live (g_servers (ln_mgr s')) = live (g_servers (ln_mgr s)).
Proof.
  unfold shape, live. generalize (g_servers (ln_mgr s)). generalize (g_servers (ln_mgr s')). intros l. induction l as [|v l IH]; intros [|u k] E; cbn in E; try discriminate; [reflexivity|].
  injection E as E1 E2 E3 E4 E5. cbn [flat_map]. rewrite E1, E2, E3, (IH k E5). reflexivity.
Qed.
Lemma deliver_only (PS : PySet) w tr s j d s' tr' : bytes_ok (fst d) -> deliver w tr s j d = (s', tr') ->
  exists evs, tr' = tr ++ evs /\ sends_only s s' evs.
Proof.
  intros B H. unfold deliver in H.
  assert (Nil : forall s1 : lnode, (s1, tr) = (s', tr') -> shape s1 = shape s -> exists evs, tr' = tr ++ evs /\ sends_only s s' evs).
  { intros s1 E S. injection E as <- <-. exists []. rewrite app_nil_r. split; [reflexivity|]. split; [reflexivity|]. split; [reflexivity|]. split; [exact (live_shape _ _ S)|constructor]. }
  destruct (nth_error (g_servers (ln_mgr s)) j) as [v|] eqn:V; [|exact (Nil s H eq_refl)].
  destruct (negb (s_alive v)); [exact (Nil s H eq_refl)|].
  destruct (parse_bytes new_msg (firstn RECV_SIZE (fst d))) as [f [[]|e]] eqn:P; [|exact (Nil s H eq_refl)|exact (Nil _ H (shape_kill j s))].
  assert (B2 : bytes_ok (firstn RECV_SIZE (fst d))) by (unfold bytes_ok in *; rewrite <- (firstn_skipn RECV_SIZE (fst d)) in B; apply Forall_app in B as (B & _); exact B).
  destruct (parsed_received _ _ (snd d) B2 P) as (Hm & _).
  destruct (to_string (set_from (Some (snd d)) f)) as [t|e]; [|exact (Nil _ H (shape_kill j s))].
  destruct (notify w tr s (s_obs v) (set_from (Some (snd d)) f)) as [[s1 tr1] r1] eqn:No.
  destruct (notify_only PS w _ _ (s_obs v) Hm tr s s1 tr1 r1 No) as (evs & -> & S).
  destruct r1 as [u|e]; injection H as <- <-; exists evs; (split; [reflexivity|]); [exact S|].
  destruct S as (S1 & S2 & S3 & S4). split; [exact S1|]. split; [exact S2|]. split; [|exact S4]. rewrite (live_shape _ _ (shape_kill j s1)). exact S3.
Qed.

(** ** Starting and stopping *)
Lemma stop_events l k : times k (closed (flat_map (fun s => snd (fst (server_stop s))) l)) = times k (live l) /\
  opened (flat_map (fun s => snd (fst (server_stop s))) l) = [] /\ sent (flat_map (fun s => snd (fst (server_stop s))) l) = [].
Proof.
  induction l as [|v l (A & B & C)]; [repeat split|]. cbn [flat_map live]. unfold live in *. cbn [flat_map]. rewrite closed_app, opened_app, sent_app, !times_app, A, B, C.
  unfold server_stop. destruct (s_open v); cbn; auto.
Qed.
Lemma lawful_quiet tr evs : lawful tr -> sent evs = [] -> lawful (tr ++ evs).
Proof.
  intros L S. apply lawful_app; [exact L|]. intros before i b d r later E. rewrite E, sent_app in S. apply app_eq_nil in S as (_ & S). discriminate.
Qed.
Definition mbooks (g : manager) (tr : trace) : Prop := forall k, times k (opened tr) = (times k (closed tr) + times k (live (g_servers g)))%nat.
Definition mgood (g : manager) (tr : trace) : Prop := lawful tr /\ mbooks g tr.

Lemma mgr_stop_good g tr g' tr' b : mgr_stop tr g = (g', tr', b) -> mgood g tr -> mgood g' tr' /\ exists evs, tr' = tr ++ evs /\ sent evs = [].
Proof.
  unfold mgr_stop. intros E (L & B). injection E as <- <- <-. destruct (stop_events (g_servers g) (true, ""%string)) as (_ & O & S).
  split; [|eexists; split; [reflexivity|exact S]]. split; [apply lawful_quiet; [exact L|exact S]|]. intros k. rewrite opened_app, closed_app, !times_app, O.
  destruct (stop_events (g_servers g) k) as (-> & _). cbn [g_servers set_servers live flat_map]. rewrite (B k). cbn. lia.
Qed.
Lemma mgr_start_one_good w tr g uni i g' tr' r : mgr_start_one w tr g uni i = (g', tr', r) -> mgood g tr -> mgood g' tr' /\ exists evs, tr' = tr ++ evs /\ sent evs = [].
Proof.
  unfold mgr_start_one, server_bind, new_server. cbn [s_uni s_if s_open s_alive s_obs]. intros H (L & B). destruct (os_bind w tr uni i) as [u|e] eqn:Eb.
  - unfold server_start in H. cbn [s_open negb s_uni s_if s_obs] in H. injection H as <- <- <-. split; [|eexists; split; reflexivity]. split; [apply lawful_quiet; [exact L|reflexivity]|].
    intros k. rewrite opened_app, closed_app, !times_app, (B k). cbn [g_servers set_servers]. unfold live. rewrite flat_map_app, times_app.
    change (opened [EvBind uni i (Ok u)]) with [(uni, i)]. change (closed [EvBind uni i (Ok u)]) with (@nil socket). change (flat_map _ [mksrv uni i true true []]) with [(uni, i)]. change (times k []) with 0%nat. lia.
  - injection H as <- <- <-. split; [|eexists; split; reflexivity]. split; [apply lawful_quiet; [exact L|reflexivity]|].
    intros k. rewrite opened_app, closed_app, !times_app, (B k). change (opened [EvBind uni i (Err e)]) with (@nil socket). change (closed [EvBind uni i (Err e)]) with (@nil socket). change (times k []) with 0%nat. lia.
Qed.
Lemma mgr_start_loop_good w l : forall tr g g' tr' r, mgr_start_loop w tr g l = (g', tr', r) -> mgood g tr -> mgood g' tr' /\ exists evs, tr' = tr ++ evs /\ sent evs = [].
Proof.
  induction l as [|i l IH]; intros tr g g' tr' r H M; cbn [mgr_start_loop] in H.
  - injection H as <- <- <-. split; [exact M|]. exists []. rewrite app_nil_r. auto.
  - destruct (mgr_start_one w tr g true i) as [[g1 t1] r1] eqn:E1. destruct (mgr_start_one_good _ _ _ _ _ _ _ _ E1 M) as (M1 & e1 & -> & S1).
    assert (D1 : (g1, tr ++ e1, r1) = (g', tr', r) -> mgood g' tr' /\ exists evs, tr' = tr ++ evs /\ sent evs = []) by (intros E; injection E as <- <- <-; eauto).
    destruct r1 as [[]|]; try exact (D1 H). destruct (mgr_start_one w (tr ++ e1) g1 false i) as [[g2 t2] r2] eqn:E2. destruct (mgr_start_one_good _ _ _ _ _ _ _ _ E2 M1) as (M2 & e2 & -> & S2).
    assert (D2 : (g2, (tr ++ e1) ++ e2, r2) = (g', tr', r) -> mgood g' tr' /\ exists evs, tr' = tr ++ evs /\ sent evs = []).
    { intros E. injection E as <- <- <-. split; [exact M2|]. exists (e1 ++ e2). rewrite app_assoc, sent_app, S1, S2. auto. }
    destruct r2 as [[]|]; try exact (D2 H). destruct (IH _ _ _ _ _ H M2) as (M3 & e3 & -> & S3). split; [exact M3|]. exists (e1 ++ e2 ++ e3). rewrite <- !app_assoc, !sent_app, S1, S2, S3. auto.
Qed.
Lemma mgr_start_good w tr g l g' tr' r : mgr_start w tr g l = (g', tr', r) -> mgood g tr -> mgood g' tr' /\ exists evs, tr' = tr ++ evs /\ sent evs = [].
Proof.
  unfold mgr_start. intros H M. destruct (mgr_stop tr g) as [[g0 t0] b0] eqn:E0. destruct (mgr_stop_good _ _ _ _ _ E0 M) as (M0 & e0 & -> & S0).
  destruct (mgr_start_loop w (tr ++ e0) g0 _) as [[g1 t1] r1] eqn:E1. destruct (mgr_start_loop_good _ _ _ _ _ _ _ E1 M0) as (M1 & e1 & -> & S1).
  assert (K : mgood g1 ((tr ++ e0) ++ e1) /\ exists evs, (tr ++ e0) ++ e1 = tr ++ evs /\ sent evs = []).
  { split; [exact M1|]. exists (e0 ++ e1). rewrite app_assoc, sent_app, S0, S1. auto. }
  destruct r1 as [[]|]; [destruct (zlen (g_servers g1) <=? 0)| |]; injection H as <- <- <-; exact K.
Qed.
Lemma live_observer o l : live (map (server_add_observer o) l) = live l.
Proof. induction l as [|v l IH]; [reflexivity|]. unfold live in *. cbn [map flat_map]. rewrite IH. reflexivity. Qed.

Definition good (s : lnode) (tr : trace) : Prop := lawful tr /\ books s tr.
Lemma local_start_good w tr s l s' tr' r : local_start w tr s l = (s', tr', r) -> good s tr -> good s' tr' /\ exists evs, tr' = tr ++ evs /\ sent evs = [].
Proof.
  unfold local_start. intros H M. destruct (mgr_start w tr (ln_mgr s) []) as [[g t] r1] eqn:E. destruct (mgr_start_good _ _ _ _ _ _ _ E M) as ((L & B) & K).
  destruct r1 as [[]|]; injection H as <- <- <-; (split; [|exact K]); (split; [exact L|]); intros k; cbn; [|exact (B k)..].
  rewrite live_observer. exact (B k).
Qed.

Lemma only_good s s' tr evs : good s tr -> sends_only s s' evs -> good s' (tr ++ evs).
Proof. intros (L & B) S. exact (sends_only_ok s s' tr evs L B S). Qed.
Lemma servers_good s s' tr : g_servers (ln_mgr s') = g_servers (ln_mgr s) -> good s tr -> good s' tr.
Proof. intros E (L & B). exact (no_sends_only s s' tr E L B). Qed.

Lemma add_object_servers (PS : PySet) o s : ln_mgr (fst (local_add_object o s)) = ln_mgr s.
Proof.
  assert (U : forall s, ln_mgr (fst (update_profile s)) = ln_mgr s).
  { intros s0. unfold update_profile. destruct (ln_prof s0) as [|p]; [destruct (zget _ _) as [q|]; [|reflexivity]|]; (destruct (np_update_map _ _) as [o' r]; reflexivity). }
  unfold local_add_object. destruct o as [o|]; [|reflexivity]. cbv zeta. rewrite U. cbn [ln_mgr set_ln_node].
  destruct (o_code o =? NODE_PROFILE_CODE); [|reflexivity]. destruct (ln_prof s); [|reflexivity]. destruct (zget _ _); reflexivity.
Qed.

Lemma ctl_search_only w tr s s' tr' r : ctl_search w tr s = (s', tr', r) -> exists evs, tr' = tr ++ evs /\ sends_only s s' evs.
Proof.
  unfold ctl_search. destruct (local_announce w tr s search_message) as [[[s1 t1] m1] r1] eqn:E. intros H. injection H as <- <- <-.
  destruct (local_announce_only _ _ _ _ _ _ _ _ E) as (evs & -> & S & _). eauto.
Qed.
Lemma post_begin_only w tr s m d s' tr' m' r : post_begin w tr s m d = (s', tr', m', r) -> exists evs, tr' = tr ++ evs /\ sends_only s s' evs.
Proof.
  unfold post_begin. destruct (ln_ctl s) as [c|].
  - unfold ctl_send. destruct (local_send w tr s m (dest_addr d)) as [[[s1 t1] m1] r1] eqn:E. intros H. injection H as <- <- <- <-.
    destruct (local_send_only _ _ _ _ _ _ _ _ _ E) as (evs & -> & S & _). exists evs. split; [reflexivity|]. exact S.
  - intros H. injection H as <- <- <- <-. exists []. rewrite app_nil_r. split; [reflexivity|]. apply only_refl; reflexivity.
Qed.
Lemma step_good (PS : PySet) w s tr a s' tr' : act_ok a -> act_step w (s, tr) a = (s', tr') -> good s tr -> good s' tr'.
Proof.
  intros A H G.
  assert (O : (exists evs, tr' = tr ++ evs /\ sends_only s s' evs) -> good s' tr') by (intros (evs & -> & S); exact (only_good s s' tr evs G S)).
  destruct a as [l| |o|o|opt v|l|m a|m|j d| | |m d|m d|n o esv l|n o esv l|c]; cbn [act_step] in H.
  - destruct (local_start w tr s l) as [[s1 t1] r1] eqn:E. cbn [fst] in H. injection H as <- <-. exact (proj1 (local_start_good _ _ _ _ _ _ _ E G)).
  - unfold local_stop in H. destruct (mgr_stop tr (ln_mgr s)) as [[g t] b] eqn:E. cbn [fst] in H. injection H as <- <-. exact (proj1 (mgr_stop_good _ _ _ _ _ E G)).
  - injection H as <- <-. apply (servers_good s); [|exact G]. now rewrite add_object_servers.
  - injection H as <- <-. destruct G as (L & B). split; [exact L|]. intros k. unfold local_add_observer. cbn. rewrite live_observer. exact (B k).
  - injection H as <- <-. apply (servers_good s); [reflexivity|exact G].
  - injection H as <- <-. apply (servers_good s); [reflexivity|exact G].
  - destruct (local_send w tr s m a) as [[[s1 t1] m1] r1] eqn:E. cbn [fst] in H. injection H as <- <-. apply O. destruct (local_send_only _ _ _ _ _ _ _ _ _ E) as (evs & -> & S & _). eauto.
  - destruct (local_announce w tr s m) as [[[s1 t1] m1] r1] eqn:E. cbn [fst] in H. injection H as <- <-. apply O. destruct (local_announce_only _ _ _ _ _ _ _ _ E) as (evs & -> & S & _). eauto.
  - apply O. exact (deliver_only PS w tr s j d s' tr' A H).
  - unfold ctl_start in H. destruct (local_start w tr s []) as [[s1 t1] r1] eqn:E. destruct (local_start_good _ _ _ _ _ _ _ E G) as (G1 & _).
    destruct r1 as [[]|]; cbn [fst] in H; [|injection H as <- <-; exact G1..]. destruct (ctl_search w t1 s1) as [[s2 t2] r2] eqn:E2. cbn [fst] in H. injection H as <- <-.
    destruct (ctl_search_only _ _ _ _ _ _ E2) as (evs & -> & S). exact (only_good s1 s2 t1 evs G1 S).
  - destruct (ctl_search w tr s) as [[s2 t2] r2] eqn:E2. cbn [fst] in H. injection H as <- <-. apply O. exact (ctl_search_only _ _ _ _ _ _ E2).
  - unfold ctl_send in H. destruct (local_send w tr s m (dest_addr d)) as [[[s1 t1] m1] r1] eqn:E. cbn [fst] in H. injection H as <- <-. apply O. destruct (local_send_only _ _ _ _ _ _ _ _ _ E) as (evs & -> & S & _). eauto.
  - destruct (post_begin w tr s m d) as [[[s1 t1] m1] r1] eqn:E. cbn [fst] in H. injection H as <- <-. apply O. exact (post_begin_only _ _ _ _ _ _ _ _ _ E).
  - unfold object_send in H. destruct (create_message (o_code o) esv l) as [m|]; [|cbn [fst] in H; injection H as <- <-; exact G]. unfold ctl_send in H.
    destruct (local_send w tr s m (dest_addr (DNode n))) as [[[s1 t1] m1] r1] eqn:E. cbn [fst] in H. injection H as <- <-. apply O. destruct (local_send_only _ _ _ _ _ _ _ _ _ E) as (evs & -> & S & _). eauto.
  - unfold object_post in H. destruct (create_message (o_code o) esv l) as [m|]; [|cbn [fst] in H; injection H as <- <-; exact G].
    destruct (post_begin w tr s m (DNode n)) as [[[s1 t1] m1] r1] eqn:E. cbn [fst] in H. injection H as <- <-. apply O. exact (post_begin_only _ _ _ _ _ _ _ _ _ E).
  - injection H as <- <-. destruct (ln_ctl s); [|exact G]. apply (servers_good s); [reflexivity|exact G].
Qed.

Lemma L_C69_lawful : forall (PS : PySet) w l s tr s' tr', g_servers (ln_mgr s) = [] -> sent tr = [] -> (forall k, times k (opened tr) = times k (closed tr)) ->
  Forall act_ok l -> acts_run w l (s, tr) = (s', tr') ->
  lawful tr' /\
  (* what is open at the end is what the node still uses *)
  forall k, times k (opened tr') = (times k (closed tr') + times k (map (fun v => (s_uni v, s_if v)) (filter s_open (g_servers (ln_mgr s')))))%nat.
Proof.
  intros PS w l s tr s' tr' E S C F H.
  assert (G : good s tr).
  { split; [|intros k; rewrite E, (C k); cbn; lia]. intros before i b d r later Et. rewrite Et, sent_app in S. apply app_eq_nil in S as (_ & S). discriminate. }
  assert (G' : good s' tr').
  { clear E S C. revert s tr H G. induction F as [|a l A F IH]; intros s tr H G; cbn [acts_run fold_left] in H; [injection H as <- <-; exact G|].
    destruct (act_step w (s, tr) a) as [s1 t1] eqn:E. exact (IH s1 t1 H (step_good PS w s tr a s1 t1 A E G)). }
  destruct G' as (L & B). split; [exact L|]. intros k. rewrite (B k). do 2 f_equal. clear. unfold live. induction (g_servers (ln_mgr s')) as [|v l IH]; [reflexivity|].
  cbn [flat_map filter]. destruct (s_open v); cbn [map app]; rewrite IH; reflexivity.
Qed.

(** C70 *)
Lemma start_one_quiet w tr g uni i g' tr' r : mgr_start_one w tr g uni i = (g', tr', r) -> exists evs, tr' = tr ++ evs /\ sent evs = [] /\ g_tid g' = g_tid g.
Proof.
  unfold mgr_start_one, server_bind, new_server. cbn [s_uni s_if s_open s_alive s_obs]. intros H. destruct (os_bind w tr uni i) as [u|e] eqn:Eb.
  - unfold server_start in H. cbn [s_open negb] in H. injection H as <- <- <-. eexists; split; [|split]; reflexivity.
  - injection H as <- <- <-. eexists; split; [|split]; reflexivity.
Qed.
Lemma start_loop_quiet w l : forall tr g g' tr' r, mgr_start_loop w tr g l = (g', tr', r) -> exists evs, tr' = tr ++ evs /\ sent evs = [] /\ g_tid g' = g_tid g.
Proof.
  induction l as [|i l IH]; intros tr g g' tr' r H; cbn [mgr_start_loop] in H.
  - injection H as <- <- <-. exists []. rewrite app_nil_r. auto.
  - destruct (mgr_start_one w tr g true i) as [[g1 t1] r1] eqn:E1. destruct (start_one_quiet _ _ _ _ _ _ _ _ E1) as (e1 & -> & S1 & T1).
    assert (D1 : (g1, tr ++ e1, r1) = (g', tr', r) -> exists evs, tr' = tr ++ evs /\ sent evs = [] /\ g_tid g' = g_tid g) by (intros E; injection E as <- <- <-; eauto).
    destruct r1 as [[]|]; try exact (D1 H). destruct (mgr_start_one w (tr ++ e1) g1 false i) as [[g2 t2] r2] eqn:E2. destruct (start_one_quiet _ _ _ _ _ _ _ _ E2) as (e2 & -> & S2 & T2).
    assert (D2 : (g2, (tr ++ e1) ++ e2, r2) = (g', tr', r) -> exists evs, tr' = tr ++ evs /\ sent evs = [] /\ g_tid g' = g_tid g).
    { intros E. injection E as <- <- <-. exists (e1 ++ e2). rewrite app_assoc, sent_app, S1, S2, T2. auto. }
    destruct r2 as [[]|]; try exact (D2 H). destruct (IH _ _ _ _ _ H) as (e3 & -> & S3 & T3). exists (e1 ++ e2 ++ e3). rewrite <- !app_assoc, !sent_app, S1, S2, S3, T3, T2. auto.
Qed.
Lemma local_start_quiet w tr s l s' tr' r : local_start w tr s l = (s', tr', r) ->
  exists evs, tr' = tr ++ evs /\ sent evs = [] /\ g_tid (ln_mgr s') = g_tid (ln_mgr s) /\ ln_ctl s' = ln_ctl s.
Proof.
  intros H. unfold local_start in H. destruct (mgr_start w tr (ln_mgr s) []) as [[g t] r1] eqn:E.
  assert (K : exists evs, t = tr ++ evs /\ sent evs = [] /\ g_tid g = g_tid (ln_mgr s)).
  { unfold mgr_start, mgr_stop in E. destruct (stop_events (g_servers (ln_mgr s)) (true, ""%string)) as (_ & _ & S0). set (e0 := flat_map _ (g_servers (ln_mgr s))) in *.
    destruct (mgr_start_loop w (tr ++ e0) _ _) as [[g1 t1] r2] eqn:E1. destruct (start_loop_quiet _ _ _ _ _ _ _ E1) as (e1 & -> & S1 & T1).
    exists (e0 ++ e1). rewrite app_assoc, sent_app, S0, S1. destruct r2 as [[]|]; [destruct (zlen (g_servers g1) <=? 0)| |]; injection E as <- <- <-; auto. }
  destruct K as (evs & -> & S & T).
  destruct r1 as [[]|]; injection H as <- <- <-; exists evs; (split; [reflexivity|]; split; [exact S|]; split; [exact T|reflexivity]).
Qed.
Lemma L_C70_announced_refuted : forall w tr s l s' tr' r, local_start w tr s l = (s', tr', r) ->
  exists evs, tr' = tr ++ evs /\ sent evs = [].
Proof. intros w tr s l s' tr' r H. destruct (local_start_quiet _ _ _ _ _ _ _ H) as (evs & E & S & _). eauto. Qed.
Lemma casts_all b d ifs l : casts b d ifs l -> (forall e, ~ raised l e) -> map (fun x => (fst (fst (fst x)), send_bytes x, snd (fst x))) l = map (fun i => (i, b, d)) ifs.
Proof.
  induction 1 as [|i ifs e|i ifs n l C IH]; intros N; [reflexivity| |].
  - exfalso. apply (N e). eexists. split; [now left|reflexivity].
  - cbn [map fst snd]. f_equal. apply IH. intros e (x & I & E). apply (N e). exists x. split; [now right|exact E].
Qed.
Lemma L_C70_controller_searches_partial : forall w tr s c s' tr', ln_ctl s = Some c -> 0 <= g_tid (ln_mgr s) <= 65535 -> ctl_start w tr s = (s', tr', Ok true) ->
  exists evs, tr' = tr ++ evs /\
  map (fun x => (fst (fst (fst x)), send_bytes x, snd (fst x))) (sent evs) =
  map (fun i => (i, wire (mkmsg (g_tid (ln_mgr s) mod 65535 + 1) 0x0EF001 0x0EF001 0x62 [mkprop 0xD6 []] [] [] None None), ("224.0.23.0"%string, 3610))) (open_ifs s').
Proof.
  intros w tr s c s' tr' C T H. unfold ctl_start in H. destruct (local_start w tr s []) as [[s1 t1] r1] eqn:E. destruct (local_start_quiet _ _ _ _ _ _ _ E) as (e1 & -> & S1 & T1 & C1).
  destruct r1 as [[]|]; [|discriminate..]. unfold ctl_search in H. destruct (local_announce_ok w (tr ++ e1) s1 search_message) as (g' & t & S & G & X & _).
  destruct (X search_encodable) as (snds & m' & r & Q & (Cs & F) & R). rewrite Q in H. injection H as <- <- ->. destruct R as (R & _).
  exists (e1 ++ map ev_of snds). rewrite app_assoc, sent_app, S1, sent_evs. split; [reflexivity|]. cbn [app]. rewrite (casts_all _ _ _ _ Cs R).
  unfold stamped in S. change (m_TID (set_SEOJ (source s1 search_message) search_message) =? 0) with true in S. change (m_TID search_message =? 0) with true in S. cbn iota in S.
  rewrite <- T1 in *. destruct (next_TID_mod (ln_mgr s1) T) as (N1 & _). rewrite <- S in N1. cbn [snd] in N1. subst t.
  unfold open_ifs. cbn [ln_mgr set_ln_mgr]. rewrite G. unfold source. rewrite C1, C. reflexivity.
Qed.
