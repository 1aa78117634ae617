(** Lemmas for C40, C41, C43. *)
From Verif Require Import PyBase BytesM EsvM MsgM PropM ObjM DbData DbM NodeM LocalM CtrlM
  SpecWire SpecObj SpecReq SpecNode SpecLocal SpecSrv DictP BytesP WireP CodecP ObjP MapP ReqP NodeP ProfP LocalP AnswerP.
Require Import ZifyBool.

Lemma told_app a b : told (a ++ b) = told a ++ told b.
Proof. apply flat_map_app. Qed.

Lemma frame_string m : encodable m -> exists t, to_string m = Ok t.
Proof. intros E. unfold to_string. rewrite to_bytes_ok by exact E. cbn. eauto. Qed.

(** A complete frame of at most 1024 bytes reaches the observers. *)
Lemma deliver_frame (PS : PySet) w tr s i d m : arrives s i d m ->
  exists v, server_at s i = Some v /\
  deliver w tr s i d = match notify w tr s (s_obs v) m with
                       | (s1, tr1, Err _) => (kill i s1, tr1)
                       | (s1, tr1, Ok _) => (s1, tr1)
                       end.
Proof.
  intros ((v & V & A) & L & B & f & F & ->). exists v. split; [exact V|]. unfold deliver. unfold server_at in V. rewrite V, A. cbn [negb].
  rewrite firstn_all2 by exact L. rewrite (proj2 (parse_new_iff _ _ B) F).
  destruct (frame_string f) as (t & T); [apply F|]. change (to_string (set_from (Some (snd d)) f)) with (to_string f). rewrite T. reflexivity.
Qed.

Lemma kill_dead (PS : PySet) w tr s i d : match server_at s i with Some v => s_alive v = false | None => True end ->
  deliver w tr s i d = (s, tr).
Proof.
  intros H. unfold deliver. unfold server_at in H. destruct (nth_error _ i) as [v|]; [|reflexivity]. rewrite H. reflexivity.
Qed.
Lemma upd_nth {A} (l : list A) i x : (i < length l)%nat -> nth_error (upd l i x) i = Some x.
Proof. revert i. induction l as [|y l IH]; intros [|i] H; cbn in *; try lia; [reflexivity|]. apply IH. lia. Qed.
Lemma server_kill s i : match server_at (kill i s) i with Some v => s_alive v = false | None => True end.
Proof.
  unfold kill, server_at. destruct (nth_error (g_servers (ln_mgr s)) i) as [v|] eqn:V; [|rewrite V; exact I].
  cbn [ln_mgr set_ln_mgr g_servers set_servers]. rewrite upd_nth; [reflexivity|]. apply nth_error_Some. congruence.
Qed.

(** C40, finding: what does not begin with a frame ends the receiving thread; whatever arrives
    there later is lost. *)
Lemma L_C40_malformed_refuted : forall (PS : PySet) w tr s i v d rest, server_at s i = Some v -> s_alive v = true ->
  bytes_ok (fst d) -> (length (fst d) <= 1024)%nat -> (~ exists m, denotes (fst d) m) ->
  run w tr s ((i, d) :: map (fun x => (i, x)) rest) = (kill i s, tr).
Proof.
  intros PS w tr s i v d rest V A B L N. cbn [run].
  assert (E : deliver w tr s i d = (kill i s, tr)).
  { unfold deliver. unfold server_at in V. rewrite V, A. cbn [negb]. rewrite firstn_all2 by exact L.
    destruct (parse_bytes new_msg (fst d)) as [m [[|]|e]] eqn:P; [|exfalso|reflexivity].
    - exfalso. apply N. exists m. now apply parse_new_iff.
    - pose proof (sp_block_mono_msg _ _ _ P false eq_refl). discriminate. }
  rewrite E. clear E N. induction rest as [|x rest IH]; [reflexivity|]. cbn [map run].
  rewrite (kill_dead PS w tr (kill i s) i x); [exact IH|]. apply server_kill.
Qed.

(** An observer that raises ends the thread as well. *)
Lemma L_C40_raising_observer_refuted : exists w s i d m n, arrives s i d m /\ due s [(i, d); (i, d)] [m; m] = [(n, m); (n, m)] /\
  forall PS : PySet, told (snd (run w [] s [(i, d); (i, d)])) = [(n, m)].
Proof.
  exists (mkos (fun _ => []) (fun _ _ _ => Ok tt) (fun _ _ b _ => Ok (zlen b)) (fun _ s => Ok s) (fun _ _ => Err ValueError)).
  exists (mkln (new_node None) InTable 1 (mkmgr 0 [mksrv true "10.0.0.2" true true [OUser 4]]) None), 0%nat, (read_80 3, own).
  eexists. exists 4%nat. split; [|split].
  - split; [eexists; split; reflexivity|]. split; [cbn; lia|]. split; [apply read_80_bytes; lia|]. eexists.
    split; [|reflexivity]. apply parse_new_iff; [apply read_80_bytes; lia|]. vm_compute. reflexivity.
  - reflexivity.
  - intros PS. vm_compute. reflexivity.
Qed.

(** Events of a LocalNode processing a message: nothing is told to user observers of the node. *)
Lemma node_events (PS : PySet) w tr s a m s' tr' r : received_from a m -> node_received w tr s m = (s', tr', r) ->
  exists evs, tr' = tr ++ evs /\ told evs = [].
Proof.
  intros Hm H. destruct (node_received_spec w tr s a m Hm) as (s1 & evs & r1 & E & L & C). rewrite E in H. injection H as -> <- ->.
  exists evs. split; [reflexivity|].
  assert (Fo : forall c q l, Forall (obj_event c q) l -> told l = []).
  { intros c q l F. induction F as [|e l (n & ->) _ IH]; [reflexivity|]. exact IH. }
  assert (Fs : forall l, told (map ev_of l) = []) by (intros l; induction l as [|[[[? ?] ?] ?] l IH]; [reflexivity|exact IH]).
  assert (Fl : forall l, Forall listener_event l -> told l = []).
  { intros l F. induction F as [|e l K _ IH]; [reflexivity|]. destruct e; try contradiction; exact IH. }
  assert (D : (ln_ctl s = None \/ is_request (m_ESV m) = true) \/ (ln_ctl s <> None /\ is_request (m_ESV m) = false)).
  { destruct (ln_ctl s); [|auto]. destruct (is_request (m_ESV m)); [auto|]. right. split; [discriminate|reflexivity]. }
  destruct D as [D|[D1 D2]]; [|apply Fl; apply C; assumption].
  specialize (L D). unfold local_spec in L. destruct (zget (m_DEOJ m) (ln_objs s)) as [o|]; [|destruct L as (_ & -> & _); reflexivity].
  destruct L as (oe & sn & -> & F & _). rewrite told_app, (Fo _ _ _ F), Fs. reflexivity.
Qed.

Definition survives (s : lnode) (m : msg) : Prop := (exists a, received_from a m) /\ knows_gets s m.

(** The observers of a server, for a message the node survives. *)
Lemma notify_all (PS : PySet) w m l : quiet w -> no_raise w -> ~ In ONone l -> forall tr s, ln_ctl s = None -> fitting_node s -> survives s m ->
  exists s' evs, notify w tr s l m = (s', tr ++ evs, Ok tt) /\ told evs = map (fun n => (n, m)) (users l) /\
    ln_ctl s' = None /\ fitting_node s' /\ g_servers (ln_mgr s') = g_servers (ln_mgr s) /\ (forall m1, survives s m1 -> survives s' m1).
Proof.
  intros Q N. induction l as [|o l IH]; intros NN tr s C Ft ((a & Hm) & K); cbn [notify].
  - exists s, []. rewrite app_nil_r. split; [reflexivity|]. split; [reflexivity|]. split; [exact C|]. split; [exact Ft|]. split; [reflexivity|]. intros m1 X. exact X.
  - assert (NN' : ~ In ONone l) by (intros X; apply NN; now right). destruct o as [|n|]; cbn [tell].
    + destruct (node_received w tr s m) as [[s1 tr1] r] eqn:E. destruct (fitting_step PS w tr s a m s1 tr1 r Q N C Ft Hm K E) as (-> & Ft1 & C1 & H1).
      destruct (node_events PS w tr s a m s1 tr1 _ Hm E) as (ev1 & -> & T1).
      destruct (L_C30_addressed PS w tr s a m s1 _ _ Hm E) as (_ & _ & _ & _ & _ & _ & _ & G & _).
      assert (SV : forall m1, survives s m1 -> survives s1 m1).
      { intros m1 (X & Y). split; [exact X|]. intros I o1 Z1 p Hp.
        specialize (H1 (m_DEOJ m1)). rewrite Z1 in H1. destruct (zget (m_DEOJ m1) (ln_objs s)) as [o|] eqn:Z; [|contradiction].
        rewrite H1. exact (Y I o Z p Hp). }
      destruct (IH NN' (tr ++ ev1) s1 C1 Ft1 (SV m (conj (ex_intro _ a Hm) K))) as (s2 & ev2 & E2 & T2 & C2 & Ft2 & G2 & SV2).
      exists s2, (ev1 ++ ev2). rewrite E2, app_assoc, told_app, T1, T2. split; [reflexivity|]. split; [reflexivity|]. split; [exact C2|].
      split; [exact Ft2|]. split; [congruence|]. intros m1 X. apply SV2, SV, X.
    + cbn [call]. rewrite Q. destruct (IH NN' (tr ++ [EvObs n m]) s C Ft (conj (ex_intro _ a Hm) K)) as (s2 & ev2 & E2 & T2 & R2).
      exists s2, (EvObs n m :: ev2). rewrite E2, <- app_assoc. split; [reflexivity|]. split; [|exact R2].
      change (EvObs n m :: ev2) with ([EvObs n m] ++ ev2). rewrite told_app, T2. reflexivity.
    + exfalso. apply NN. now left.
Qed.

Lemma Forall2_imp {A B} (P Q : A -> B -> Prop) l k : (forall x y, P x y -> Q x y) -> Forall2 P l k -> Forall2 Q l k.
Proof. intros H F. induction F; constructor; auto. Qed.

Lemma L_C40_delivery_partial : forall (PS : PySet) w l ms s tr, quiet w -> no_raise w -> ln_ctl s = None -> fitting_node s ->
  (forall i v, server_at s i = Some v -> ~ In ONone (s_obs v)) ->
  arrive_all s l ms -> Forall (knows_gets s) ms ->
  exists s' evs, run w tr s l = (s', tr ++ evs) /\ told evs = due s l ms /\ g_servers (ln_mgr s') = g_servers (ln_mgr s).
Proof.
  intros PS w l. induction l as [|[i d] l IH]; intros ms s tr Q N C Ft NN A K.
  - inversion A; subst. exists s, []. cbn [run]. rewrite app_nil_r. repeat split.
  - inversion A as [|x m l0 ms0 A1 A2 E1 E2]; subst. cbn [fst snd] in A1. cbn [run].
    destruct (deliver_frame PS w tr s i d m A1) as (v & V & E).
    assert (Hm : exists a, received_from a m).
    { destruct A1 as (_ & _ & B & f & (F & _) & ->). exists (snd d). exists f. auto. }
    destruct (notify_all PS w m (s_obs v) Q N (NN i v V) tr s C Ft (conj Hm (Forall_inv K))) as (s1 & ev1 & E1 & T1 & C1 & Ft1 & G1 & SV).
    rewrite E1 in E. rewrite E.
    assert (SA : forall j, server_at s1 j = server_at s j) by (intros j; unfold server_at; rewrite G1; reflexivity).
    destruct (IH ms0 s1 (tr ++ ev1) Q N C1 Ft1) as (s2 & ev2 & E2 & T2 & G2).
    + intros j u U. rewrite SA in U. exact (NN j u U).
    + eapply Forall2_imp; [|exact A2]. cbn beta. intros x y. unfold arrives. rewrite SA. auto.
    + apply Forall_forall. intros m1 H1. apply SV. split.
      * clear - A2 H1. induction A2 as [|x y l ms (_ & _ & _ & f & (F & _) & ->) _ IH]; [destruct H1|].
        destruct H1 as [<-|H1]; [|auto]. exists (snd (snd x)), f. auto.
      * pose proof (Forall_inv_tail K) as K2. rewrite Forall_forall in K2. exact (K2 m1 H1).
    + exists s2, (ev1 ++ ev2). rewrite E2, app_assoc. split; [reflexivity|]. split; [|congruence].
      rewrite told_app, T1, T2. unfold due. cbn [combine flat_map fst snd]. rewrite V. f_equal. apply flat_map_ext. intros x. rewrite SA. reflexivity.
Qed.

(** ** C41 *)
Lemma L_C41_intact_partial : forall (PS : PySet) w tr s i v n m b a, server_at s i = Some v -> s_alive v = true ->
  s_obs v = [OUser n] -> to_bytes m = Ok b -> typed m -> (length b <= 1024)%nat -> quiet w ->
  exists m', deliver w tr s i (b, a) = (s, tr ++ [EvObs n m']) /\ msg_eq m' m = Ok true /\ m_from m' = Some a.
Proof.
  intros PS w tr s i v n m b a V A O TB T L Q. destruct (to_bytes_inv m b TB) as (E & ->).
  assert (AR : arrives s i (wire m, a) (set_from (Some a) (carried m))).
  { split; [eauto|]. split; [exact L|]. split; [now apply wire_bytes_ok|]. exists (carried m). split; [|reflexivity].
    split; [|exists []; rewrite wire_carried, app_nil_r; reflexivity]. split; [now apply encodable_carried|]. split; [|apply carried_idem].
    destruct T as (T1 & T2 & T3). unfold typed, carried. cbn. destruct (two_blocks (m_ESV m)); repeat split; auto; constructor. }
  destruct (deliver_frame PS w tr s i _ _ AR) as (v' & V' & D). assert (v' = v) by congruence. subst v'.
  rewrite O in D. cbn [notify tell call] in D. rewrite Q in D. exists (set_from (Some a) (carried m)). split; [exact D|]. split; [|reflexivity].
  apply (L_C09_message_equality (set_from (Some a) (carried m)) m); [now apply encodable_carried|exact E|].
  change (carried (set_from (Some a) (carried m))) with (carried (carried m)). apply carried_idem.
Qed.

Definition long_msg : msg := mkmsg 1 0x05FF01 0x029101 0x61
  (map (fun k => mkprop (0xE0 + Z.of_nat k) (repeat 0 250)) (seq 0 5)) [] [] None None.

(** Every frame of more than 1024 bytes is lost, and ends the receiving thread. *)
Lemma L_C41_intact_refuted :
  (exists m b, to_bytes m = Ok b /\ typed m /\ (1024 < length b)%nat) /\
  forall (PS : PySet) w tr s i v m b a, server_at s i = Some v -> s_alive v = true ->
  to_bytes m = Ok b -> typed m -> (1024 < length b)%nat ->
  deliver w tr s i (b, a) = (kill i s, tr).
Proof.
  split.
  - exists long_msg. eexists. split; [vm_compute; reflexivity|]. split; [|vm_compute; lia].
    split; [|split; constructor]. unfold long_msg. cbn [m_props map seq].
    repeat (constructor; [unfold data_ok; cbn [p_data]; apply Forall_forall; intros x Hx; apply repeat_spec in Hx; subst x; unfold byte_ok; lia|]). constructor.
  - intros PS w tr s i v m b a V A TB T L. unfold deliver. unfold server_at in V. rewrite V, A. cbn [negb fst].
    destruct (L_C07_truncated_never_accepted m b RECV_SIZE TB T L) as (e & E & _).
    destruct (parse_bytes new_msg (firstn RECV_SIZE b)) as [m' r]. cbn [snd] in E. rewrite E. reflexivity.
Qed.

(** ** C43 *)
Lemma add_users_obs ns : forall l, fold_left (fun acc o => fst (subj_add o acc)) (map OUser ns) (ONode :: map OUser l) =
  ONode :: fold_left (fun acc o => fst (subj_add o acc)) (map OUser ns) (map OUser l).
Proof.
  induction ns as [|n ns IH]; intros l; [reflexivity|]. cbn [map fold_left].
  assert (E : fst (subj_add (OUser n) (ONode :: map OUser l)) = ONode :: fst (subj_add (OUser n) (map OUser l))).
  { unfold subj_add. cbn [existsb obs_eqb orb]. destruct (existsb _ _); reflexivity. }
  rewrite E. assert (S : exists l', fst (subj_add (OUser n) (map OUser l)) = map OUser l').
  { unfold subj_add. destruct (existsb _ _); [exists l; reflexivity|]. exists (l ++ [n]). rewrite map_app. reflexivity. }
  destruct S as (l' & ->). apply IH.
Qed.
Lemma add_all_servers os : forall s, g_servers (ln_mgr (fold_left (fun s o => local_add_observer o s) os s)) =
  map (fun v => mksrv (s_uni v) (s_if v) (s_open v) (s_alive v) (fold_left (fun acc o => fst (subj_add o acc)) os (s_obs v))) (g_servers (ln_mgr s)).
Proof.
  induction os as [|o os IH]; intros s; cbn [fold_left].
  - rewrite <- (map_id (g_servers (ln_mgr s))) at 1. apply map_ext. intros []; reflexivity.
  - rewrite IH. unfold local_add_observer, mgr_add_observer. cbn [ln_mgr set_ln_mgr g_servers set_servers]. rewrite map_map. reflexivity.
Qed.

Lemma L_C43_observer_partial : forall w tr s l s1 tr1 ns, local_start w tr s l = (s1, tr1, Ok true) ->
  let s2 := fold_left (fun s n => local_add_observer (OUser n) s) ns s1 in
  g_servers (ln_mgr s2) <> [] /\
  forall i v, server_at s2 i = Some v -> s_alive v = true /\ users (s_obs v) = firsts Nat.eqb ns /\ ~ In ONone (s_obs v).
Proof.
  intros w tr s l s1 tr1 ns H s2. destruct (L_C44_start _ _ _ _ _ _ H) as (NE & R & _). red in R.
  assert (E : s2 = fold_left (fun s o => local_add_observer o s) (map OUser ns) s1).
  { unfold s2. clear. revert s1. induction ns as [|n ns IH]; intros s1; [reflexivity|]. cbn [fold_left map]. apply IH. }
  rewrite E. unfold server_at. rewrite add_all_servers, R.
  assert (RG : forall ns, fold_left (fun acc o => fst (subj_add o acc)) (map OUser ns) [ONode] = ONode :: map OUser (firsts Nat.eqb ns)).
  { intros k. pose proof (add_users_obs k []) as AU. change (map OUser []) with (@nil obs) in AU. rewrite AU. f_equal. change (register (map OUser k) = map OUser (firsts Nat.eqb k)).
    destruct (L_C42_observers_partial pyset_nodup good_os [] s new_msg k good_quiet) as (_ & _ & X & _). exact X. }
  split.
  - destruct (non_loopback _) as [|x y]; [congruence|]. discriminate.
  - intros i v V. apply nth_error_In in V. apply in_map_iff in V. destruct V as (u & <- & U). apply in_flat_map in U.
    destruct U as (x & _ & U). cbn [s_alive s_obs]. assert (UO : s_alive u = true /\ s_obs u = [ONode]) by (destruct U as [<-|[<-|[]]]; split; reflexivity).
    destruct UO as (-> & ->). rewrite RG. split; [reflexivity|]. split.
    + cbn [users flat_map app]. fold (users (map OUser (firsts Nat.eqb ns))). induction (firsts Nat.eqb ns) as [|n k IH]; [reflexivity|]. cbn. f_equal. exact IH.
    + intros [X|X]; [discriminate|]. apply in_map_iff in X. destruct X as (n & X & _). discriminate.
Qed.

(** Finding: a start drops every observer added before it. *)
Lemma L_C43_observer_refuted : forall w tr s n l s1 tr1,
  local_start w tr (local_add_observer (OUser n) s) l = (s1, tr1, Ok true) ->
  g_servers (ln_mgr s1) <> [] /\ forall i v, server_at s1 i = Some v -> ~ In (OUser n) (s_obs v) /\ users (s_obs v) = [].
Proof.
  intros w tr s n l s1 tr1 H. destruct (L_C44_start _ _ _ _ _ _ H) as (NE & R & _). red in R. unfold server_at. rewrite R. split.
  - destruct (non_loopback _) as [|x y]; [congruence|]. discriminate.
  - intros i v V. apply nth_error_In in V. apply in_flat_map in V. destruct V as (x & _ & U).
    assert (UO : s_obs v = [ONode]) by (destruct U as [<-|[<-|[]]]; reflexivity). rewrite UO. split; [intros [X|[]]; discriminate|reflexivity].
Qed.

(** The exact outcome for every sequence of datagrams. *)
Definition dead_in (dead : list nat) (s0 s : lnode) : Prop :=
  forall i, server_at s i = match server_at s0 i with
    | Some v => Some (if existsb (Nat.eqb i) dead then mksrv (s_uni v) (s_if v) (s_open v) false (s_obs v) else v)
    | None => None end.
Lemma existsb_in i l : existsb (Nat.eqb i) l = true <-> In i l.
Proof.
  rewrite existsb_exists. split; [intros (x & H & E); apply Nat.eqb_eq in E; now subst|]. intros H. exists i. split; [exact H|apply Nat.eqb_refl].
Qed.
Lemma existsb_nin i l : existsb (Nat.eqb i) l = false <-> ~ In i l.
Proof. rewrite <- existsb_in. destruct (existsb _ _); split; congruence. Qed.
Lemma upd_other {A} (l : list A) i j x : i <> j -> nth_error (upd l i x) j = nth_error l j.
Proof. revert i j. induction l as [|y l IH]; intros [|i] [|j] H; cbn; try reflexivity; try congruence. apply IH. congruence. Qed.
Lemma dead_kill dead s0 s i : dead_in dead s0 s -> dead_in (i :: dead) s0 (kill i s).
Proof.
  intros D j. pose proof (D j) as Dj. pose proof (D i) as Di. unfold kill. unfold server_at in *. cbn [existsb].
  destruct (Nat.eqb_spec j i) as [->|N].
  - cbn [orb]. destruct (nth_error (g_servers (ln_mgr s)) i) as [v|] eqn:V.
    + cbn [ln_mgr set_ln_mgr g_servers set_servers]. rewrite upd_nth by (apply nth_error_Some; congruence).
      destruct (nth_error (g_servers (ln_mgr s0)) i) as [u|]; [|discriminate]. injection Di as ->. destruct (existsb _ dead); reflexivity.
    + rewrite V. destruct (nth_error (g_servers (ln_mgr s0)) i); [discriminate|reflexivity].
  - cbn [orb]. rewrite <- Dj. destruct (nth_error (g_servers (ln_mgr s)) i) as [v|]; [|reflexivity].
    cbn [ln_mgr set_ln_mgr g_servers set_servers]. apply upd_other. congruence.
Qed.
Lemma kill_fields i s : ln_ctl (kill i s) = ln_ctl s /\ ln_node (kill i s) = ln_node s.
Proof. unfold kill. destruct (nth_error _ i); split; reflexivity. Qed.

Lemma L_C40_outcome_partial : forall (PS : PySet) w l s tr, quiet w -> no_raise w -> ln_ctl s = None -> fitting_node s ->
  (forall i v, server_at s i = Some v -> ~ In ONone (s_obs v)) ->
  Forall (fun x => bytes_ok (fst (snd x)) /\ forall f, denotes (seen (snd x)) f -> knows_gets s f) l ->
  exists s' evs, run w tr s l = (s', tr ++ evs) /\ hears s [] l (told evs).
Proof.
  intros PS w l s0 tr0 Q N C0 Ft0 NN.
  enough (G : forall l dead s tr, dead_in dead s0 s -> ln_ctl s = None -> fitting_node s ->
    Forall (fun x => bytes_ok (fst (snd x)) /\ forall f, denotes (seen (snd x)) f -> knows_gets s f) l ->
    exists s' evs, run w tr s l = (s', tr ++ evs) /\ hears s0 dead l (told evs)).
  { intros F. apply (G l [] s0 tr0); auto. intros i. destruct (server_at s0 i); reflexivity. }
  clear l tr0. induction l as [|[i d] l IH]; intros dead s tr D C Ft F.
  - exists s, []. cbn [run]. rewrite app_nil_r. split; [reflexivity|constructor].
  - pose proof (Forall_inv F) as (B & K). cbn [fst snd] in B, K. pose proof (Forall_inv_tail F) as F'. cbn [run].
    pose proof (D i) as Di.
    assert (SIL : (In i dead \/ forall v, server_at s0 i = Some v -> s_alive v = false) -> 
      exists s' evs, (let '(s1, tr1) := deliver w tr s i d in run w tr1 s1 l) = (s', tr ++ evs) /\ hears s0 dead ((i, d) :: l) (told evs)).
    { intros S. rewrite (kill_dead PS w tr s i d).
      - destruct (IH dead s tr D C Ft F') as (s' & evs & E & H). exists s', evs. split; [exact E|]. apply hears_silent; assumption.
      - rewrite Di. destruct (server_at s0 i) as [v|]; [|exact I]. destruct S as [S|S].
        + apply existsb_in in S. rewrite S. reflexivity.
        + destruct (existsb _ _); [reflexivity|]. now apply S. }
    destruct (existsb (Nat.eqb i) dead) eqn:ED; [apply SIL; left; now apply existsb_in|].
    destruct (server_at s0 i) as [v|] eqn:V; [|apply SIL; right; discriminate].
    destruct (s_alive v) eqn:A; [|apply SIL; right; intros u [= <-]; exact A]. clear SIL.
    apply existsb_nin in ED.
    assert (Bs : bytes_ok (seen d)) by (apply Forall_forall; intros x Hx; unfold bytes_ok in B; rewrite Forall_forall in B; apply B; unfold seen in Hx; rewrite <- (firstn_skipn 1024 (fst d)); apply in_or_app; now left).
    destruct (parse_bytes new_msg (seen d)) as [f r] eqn:P.
    assert (R : r = Ok true \/ r <> Ok true) by (destruct r as [[|]|]; [left; reflexivity|right; discriminate|right; discriminate]).
    destruct R as [->|R].
    + pose proof (proj1 (parse_new_iff _ _ Bs) P) as Df.
      assert (AR : arrives s i (seen d, snd d) (set_from (Some (snd d)) f)).
      { split; [exists v; split; [exact Di|exact A]|]. split; [unfold seen; cbn [fst]; rewrite firstn_length; lia|]. split; [exact Bs|]. exists f. auto. }
      destruct (deliver_frame PS w tr s i _ _ AR) as (v' & V' & E). assert (v' = v) by congruence. subst v'.
      assert (ES : deliver w tr s i (seen d, snd d) = deliver w tr s i d).
      { unfold deliver. cbn [fst snd]. unfold seen. change RECV_SIZE with 1024%nat. rewrite firstn_firstn, Nat.min_id. reflexivity. }
      rewrite ES in E. rewrite E.
      destruct (notify_all PS w (set_from (Some (snd d)) f) (s_obs v) Q N (NN i v V) tr s C Ft) as (s1 & ev1 & E1 & T1 & C1 & Ft1 & G1 & SV).
      { split; [exists (snd d); exists f; split; [apply Df|reflexivity]|]. exact (K f Df). }
      rewrite E1.
      destruct (IH dead s1 (tr ++ ev1)) as (s2 & ev2 & E2 & H2); [intros j; specialize (D j); unfold server_at in *; rewrite G1; exact D|exact C1|exact Ft1| |].
      { eapply Forall_impl; [|exact F']. cbn beta. intros x (X & Y). split; [exact X|]. intros q Hq.
        assert (S1 : survives s1 (set_from (Some (snd d)) q)); [|exact (proj2 S1)].
        apply SV. split; [exists (snd d), q; split; [apply Hq|reflexivity]|]. exact (Y q Hq). }
      exists s2, (ev1 ++ ev2). rewrite E2, app_assoc. split; [reflexivity|]. rewrite told_app, T1. eapply hears_frame; eassumption.
    + assert (E : deliver w tr s i d = (kill i s, tr)).
      { unfold deliver. unfold server_at in Di. rewrite Di, A. cbn [negb]. change RECV_SIZE with 1024%nat. fold (seen d). rewrite P.
        destruct r as [[|]|e]; [congruence| |reflexivity]. exfalso. pose proof (sp_block_mono_msg _ _ _ P false eq_refl). discriminate. }
      rewrite E. destruct (kill_fields i s) as (KC & KN).
      destruct (IH (i :: dead) (kill i s) tr) as (s2 & ev2 & E2 & H2); [now apply dead_kill|congruence|intros k o; unfold ln_objs; rewrite KN; exact (Ft k o)| |].
      { eapply Forall_impl; [|exact F']. cbn beta. intros x (X & Y). split; [exact X|]. intros q Hq I o. unfold ln_objs. rewrite KN. exact (Y q Hq I o). }
      exists s2, ev2. split; [exact E2|]. eapply hears_malformed; try eassumption.
      intros (q & Hq). apply (proj2 (parse_new_iff _ _ Bs)) in Hq. rewrite P in Hq. injection Hq as _ Hr. congruence.
Qed.
