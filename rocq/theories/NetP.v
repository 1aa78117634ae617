(** Lemmas for C68. *)
From Verif Require Import PyBase BytesM EsvM MsgM PropM ObjM DbData DbM NodeM LocalM CtrlM
  SpecWire SpecObj SpecReq SpecDb SpecNode SpecProf SpecLocal SpecSrv SpecCtrl SpecEnd SpecNet DictP BytesP WireP CodecP ObjP MapP ReqP DbP NodeP ProfP LocalP AnswerP SrvP CtrlP EndP.
From Verif Require Import SpecReq.
Require Import ZifyBool.

Lemma esv_wire m tail : esv_of (wire m ++ tail) = m_ESV m.
Proof. unfold esv_of, wire, wire_header. rewrite be2, !be3. reflexivity. Qed.
Lemma esv_prefix n b : (10 < length (firstn n b))%nat -> esv_of (firstn n b) = esv_of b.
Proof.
  intros L. unfold esv_of. rewrite <- (firstn_skipn n b) at 2. rewrite app_nth1 by exact L. reflexivity.
Qed.
Lemma answer_not_request e : answer_code e -> is_request e = false.
Proof. unfold answer_code. cbn [In]. intros H. repeat destruct H as [<-|H]; try reflexivity. contradiction. Qed.
Lemma tries_length b d ifs l : tries b d ifs l -> (length l <= length ifs)%nat.
Proof. intros H. induction H; cbn [length] in *; lia. Qed.
Lemma casts_length b d ifs l : casts b d ifs l -> (length l <= length ifs)%nat.
Proof. intros H. induction H; cbn [length] in *; lia. Qed.

Lemma node_keeps_servers (PS : PySet) w tr s a m s' tr' r : received_from a m -> node_received w tr s m = (s', tr', r) ->
  g_servers (ln_mgr s') = g_servers (ln_mgr s).
Proof.
  intros Hm H. destruct (node_received_spec w tr s a m Hm) as (s1 & evs & r1 & E & L & C). rewrite E in H. injection H as -> <- ->.
  assert (D : (ln_ctl s = None \/ is_request (m_ESV m) = true) \/ (ln_ctl s <> None /\ is_request (m_ESV m) = false)).
  { destruct (ln_ctl s); [|auto]. destruct (is_request (m_ESV m)); [auto|]. right. split; [discriminate|reflexivity]. }
  destruct D as [D|[D1 D2]]; [|destruct (C D1 D2) as (_ & c' & ->); reflexivity].
  specialize (L D). unfold local_spec in L. destruct (zget (m_DEOJ m) (ln_objs s)) as [o|]; [|destruct L as (-> & _); reflexivity].
  destruct L as (oe & sn & _ & _ & [(_ & -> & _)|L]); [reflexivity|]. destruct (obj_message_received o m) as [[o' t] x]. destruct L as (_ & g' & -> & G & _). exact G.
Qed.

Definition sends_ok (n : nat) (rq : bool) (evs : trace) : Prop :=
  Forall (fun x => answer_code (esv_of (send_bytes x))) (sent evs) /\ (length (sent evs) <= n)%nat /\ (rq = false -> sent evs = []).

Lemma node_sends_ok (PS : PySet) w tr s a m s' tr' r : received_from a m -> node_received w tr s m = (s', tr', r) ->
  exists evs, tr' = tr ++ evs /\ sends_ok (length (open_ifs s)) (is_request (m_ESV m)) evs.
Proof.
  intros Hm H. destruct (node_sends PS w tr s a m s' tr' r Hm H) as (evs & -> & _ & K & _). exists evs. split; [reflexivity|].
  destruct K as [K|(o & o' & told & rsp & b & Z & O & _ & S & M & _)].
  { unfold sends_ok. rewrite K. split; [constructor|]. split; [cbn; lia|reflexivity]. }
  assert (Er := obj_response_esv _ _ _ _ _ O).
  assert (Eb : answer_code (esv_of b)).
  { destruct S as (g' & t & _ & ->). rewrite <- (app_nil_r (wire _)), esv_wire. change (m_ESV (set_TID t (set_SEOJ (source s rsp) rsp))) with (m_ESV rsp).
    unfold answer_code. cbn [In] in *. tauto. }
  split; [|split].
  - apply Forall_forall. intros x Hx. assert (B : send_bytes x = b).
    { unfold by_mode in M. destruct (m_ESV rsp =? 0x73); [exact (proj1 (casts_all _ _ _ _ M x Hx))|exact (proj1 (tries_all _ _ _ _ M x Hx))]. }
    rewrite B. exact Eb.
  - unfold by_mode in M. destruct (m_ESV rsp =? 0x73); [eapply casts_length|eapply tries_length]; exact M.
  - intros F. apply response_request in O. congruence.
Qed.

Lemma notify_sends (PS : PySet) w a m l : received_from a m -> forall tr s s' tr' r, notify w tr s l m = (s', tr', r) ->
  g_servers (ln_mgr s') = g_servers (ln_mgr s) /\
  exists evs, tr' = tr ++ evs /\ sends_ok (length l * length (open_ifs s)) (is_request (m_ESV m)) evs.
Proof.
  intros Hm. induction l as [|o l IH]; intros tr s s' tr' r H; cbn [notify] in H.
  - injection H as <- <- <-. split; [reflexivity|]. exists []. rewrite app_nil_r. split; [reflexivity|]. split; [constructor|]. split; [cbn; lia|reflexivity].
  - destruct (tell w tr s o m) as [[s1 tr1] r1] eqn:T.
    assert (A : g_servers (ln_mgr s1) = g_servers (ln_mgr s) /\ exists evs, tr1 = tr ++ evs /\ sends_ok (length (open_ifs s)) (is_request (m_ESV m)) evs).
    { destruct o as [|n|]; cbn [tell] in T.
      - split; [exact (node_keeps_servers PS _ _ _ _ _ _ _ _ Hm T)|exact (node_sends_ok PS _ _ _ _ _ _ _ _ Hm T)].
      - unfold call in T. injection T as <- <- _. split; [reflexivity|]. eexists. split; [reflexivity|]. split; [constructor|]. split; [cbn; lia|reflexivity].
      - injection T as <- <- _. split; [reflexivity|]. exists []. rewrite app_nil_r. split; [reflexivity|]. split; [constructor|]. split; [cbn; lia|reflexivity]. }
    destruct A as (G1 & evs & -> & A1 & A2 & A3). destruct r1 as [u|e].
    + destruct (IH _ _ _ _ _ H) as (G2 & evs2 & -> & B1 & B2 & B3). split; [congruence|]. exists (evs ++ evs2). rewrite app_assoc. split; [reflexivity|].
      unfold sends_ok. rewrite sent_app, app_length. split; [apply Forall_app; auto|]. split.
      * assert (Oi : open_ifs s1 = open_ifs s) by (unfold open_ifs; rewrite G1; reflexivity). rewrite Oi in B2. cbn [length Nat.mul]. lia.
      * intros F. rewrite (A3 F), (B3 F). reflexivity.
    + injection H as <- <- _. split; [exact G1|]. exists evs. split; [reflexivity|]. split; [exact A1|]. split; [cbn [length Nat.mul]; lia|exact A3].
Qed.

Definition shape (s : lnode) : list (bool * string * bool * list obs) := map (fun v => (s_uni v, s_if v, s_open v, s_obs v)) (g_servers (ln_mgr s)).
Lemma upd_map {A B} (f : A -> B) (l : list A) i x : nth_error (map f l) i = Some (f x) -> map f (upd l i x) = map f l.
Proof.
  revert i. induction l as [|y l IH]; intros [|i] E; cbn in E |- *; try discriminate.
  - congruence.
  - f_equal. apply IH. exact E.
Qed.
Lemma shape_kill i s : shape (kill i s) = shape s.
Proof.
  unfold kill. destruct (nth_error (g_servers (ln_mgr s)) i) as [v|] eqn:V; [|reflexivity]. unfold shape. cbn [ln_mgr set_ln_mgr g_servers set_servers].
  apply upd_map. rewrite nth_error_map, V. reflexivity.
Qed.
Lemma shape_ifs s s' : shape s' = shape s -> open_ifs s' = open_ifs s.
Proof.
  unfold shape, open_ifs. generalize (g_servers (ln_mgr s)). generalize (g_servers (ln_mgr s')). intros l. induction l as [|v l IH]; intros [|u k] E; cbn in E; try discriminate; [reflexivity|].
  injection E as E1 E2 E3 E4 E5. cbn [filter]. rewrite E1, E3. destruct (s_uni u && s_open u); cbn [map]; rewrite (IH k E5); congruence.
Qed.
Lemma shape_fan n s s' : shape s' = shape s -> fan_out n s -> fan_out n s'.
Proof.
  intros E F v I. rewrite (shape_ifs _ _ E). assert (I2 : In (s_uni v, s_if v, s_open v, s_obs v) (shape s)).
  { rewrite <- E. unfold shape. apply in_map_iff. exists v. auto. }
  unfold shape in I2. apply in_map_iff in I2 as (u & Eu & Iu). specialize (F u Iu). injection Eu as _ _ _ Eo. rewrite <- Eo. exact F.
Qed.

Lemma deliver_sends (PS : PySet) w tr s j b a s' tr' n : bytes_ok b -> fan_out n s -> deliver w tr s j (b, a) = (s', tr') ->
  shape s' = shape s /\ exists evs, tr' = tr ++ evs /\ sends_ok n (is_request (esv_of b)) evs.
Proof.
  intros B Fo H. unfold deliver in H. cbn [fst snd] in H.
  assert (Nil : forall s1 : lnode, (s1, tr) = (s', tr') -> shape s1 = shape s -> shape s' = shape s /\ exists evs, tr' = tr ++ evs /\ sends_ok n (is_request (esv_of b)) evs).
  { intros s1 E S. injection E as <- <-. split; [exact S|]. exists []. rewrite app_nil_r. split; [reflexivity|]. split; [constructor|]. split; [cbn; lia|reflexivity]. }
  destruct (nth_error (g_servers (ln_mgr s)) j) as [v|] eqn:V; [|exact (Nil s H eq_refl)].
  destruct (negb (s_alive v)); [exact (Nil s H eq_refl)|].
  destruct (parse_bytes new_msg (firstn RECV_SIZE b)) as [f [[]|e]] eqn:P; [|exact (Nil s H eq_refl)|exact (Nil _ H (shape_kill j s))].
  assert (B2 : bytes_ok (firstn RECV_SIZE b)) by (unfold bytes_ok in *; rewrite <- (firstn_skipn RECV_SIZE b) in B; apply Forall_app in B as (B & _); exact B).
  destruct (parsed_received _ _ a B2 P) as (Hm & tail & Ef).
  assert (Ee : esv_of b = m_ESV f).
  { rewrite <- (esv_wire f tail), <- Ef. symmetry. apply esv_prefix. rewrite Ef, app_length, wire_len. lia. }
  destruct (to_string (set_from (Some a) f)) as [t|e]; [|exact (Nil _ H (shape_kill j s))].
  destruct (notify w tr s (s_obs v) (set_from (Some a) f)) as [[s1 tr1] r1] eqn:No.
  destruct (notify_sends PS w a _ (s_obs v) Hm tr s s1 tr1 r1 No) as (G & evs & -> & S1 & S2 & S3).
  assert (Sh : shape s1 = shape s) by (unfold shape; rewrite G; reflexivity).
  assert (R : sends_ok n (is_request (esv_of b)) evs).
  { split; [exact S1|]. split; [|rewrite Ee; exact S3]. specialize (Fo v (nth_error_In _ _ V)). lia. }
  destruct r1 as [u|e]; injection H as <- <-; (split; [rewrite ?shape_kill; exact Sh|]; exists evs; split; [reflexivity|exact R]).
Qed.

Lemma L_C68_reactions_unanswered : forall (PS : PySet) w1 tr1 s1 j1 b1 a1 s1' tr1' w2 tr2 s2 j2 x a2 s2' tr2',
  bytes_ok b1 -> deliver w1 tr1 s1 j1 (b1, a1) = (s1', tr1') -> In x (sent (since tr1 tr1')) ->
  bytes_ok (send_bytes x) -> deliver w2 tr2 s2 j2 (send_bytes x, a2) = (s2', tr2') ->
  sent (since tr2 tr2') = [].
Proof.
  intros PS w1 tr1 s1 j1 b1 a1 s1' tr1' w2 tr2 s2 j2 x a2 s2' tr2' B1 D1 I B2 D2.
  assert (Ex : forall s : lnode, exists n, fan_out n s).
  { intros s. unfold fan_out. generalize (g_servers (ln_mgr s)). intros l. induction l as [|v l (n & IH)]; [exists 0%nat; intros v []|].
    exists (length (s_obs v) * length (open_ifs s) + n)%nat. intros u [<-|I2]; [lia|specialize (IH u I2); lia]. }
  destruct (Ex s1) as (n1 & F1). destruct (Ex s2) as (n2 & F2).
  destruct (deliver_sends PS _ _ _ _ _ _ _ _ n1 B1 F1 D1) as (_ & e1 & -> & A1 & _). destruct (deliver_sends PS _ _ _ _ _ _ _ _ n2 B2 F2 D2) as (_ & e2 & -> & _ & _ & A3).
  rewrite since_app in *. apply A3. apply answer_not_request. rewrite Forall_forall in A1. exact (A1 x I).
Qed.

Lemma L_C68_no_storm : forall (PS : PySet) w N F l N' F' n,
  (forall s tr, In (s, tr) N -> fan_out n s) -> hops w (N, F) l (N', F') ->
  exists G, F' = F ++ G /\ Forall (fun b => answer_code (esv_of b)) G /\
  (length G <= n * length (filter (fun i => match nth_error F i with Some b => is_request (esv_of b) | None => false end) l))%nat.
Proof.
  intros PS w N F l N' F' n.
  enough (H : forall x l y, hops w x l y -> forall G0, Forall (fun b => answer_code (esv_of b)) G0 -> snd x = F ++ G0 -> (forall s tr, In (s, tr) (fst x) -> fan_out n s) ->
    exists G, snd y = F ++ G0 ++ G /\ Forall (fun b => answer_code (esv_of b)) (G0 ++ G) /\
    (length G <= n * length (filter (fun i => match nth_error F i with Some b => is_request (esv_of b) | None => false end) l))%nat).
  { intros Fo Hs. destruct (H _ _ _ Hs [] (Forall_nil _)) as (G & E & A & L); [cbn; now rewrite app_nil_r|exact Fo|]. exists G. auto. }
  intros x l0 y Hs. induction Hs as [x|x i y l0 z Hp Hs IH]; intros G0 A0 E0 Fo.
  - exists []. rewrite !app_nil_r. split; [exact E0|]. split; [exact A0|cbn; lia].
  - destruct Hp as [N0 F0 k j a i s tr b s' tr' Nk Ni Bb D]. cbn [fst snd] in *. subst F0.
    assert (Fs : fan_out n s) by exact (Fo s tr (nth_error_In _ _ Nk)).
    destruct (deliver_sends PS _ _ _ _ _ _ _ _ n Bb Fs D) as (Sh & evs & -> & S1 & S2 & S3). rewrite since_app in IH.
    destruct (IH (G0 ++ map send_bytes (sent evs))) as (G & E & A & L).
    + apply Forall_app. split; [exact A0|]. rewrite Forall_map. exact S1.
    + now rewrite app_assoc.
    + intros s1 t1 I. apply In_nth_error in I as (k1 & I). destruct (Nat.eq_dec k1 k) as [->|Nk1].
      * rewrite upd_nth in I by (apply nth_error_Some; congruence). injection I as <- <-. exact (shape_fan n s s' Sh Fs).
      * rewrite upd_other in I by congruence. exact (Fo s1 t1 (nth_error_In _ _ I)).
    + exists (map send_bytes (sent evs) ++ G). split; [rewrite E, <- !app_assoc; reflexivity|]. split; [rewrite app_assoc; exact A|].
      cbn [filter]. rewrite app_length, map_length.
      assert (Q : (length (sent evs) <= n * if match nth_error F i with Some b => is_request (esv_of b) | None => false end then 1 else 0)%nat).
      { destruct (Nat.lt_ge_cases i (length F)) as [Li|Li].
        - rewrite nth_error_app1 in Ni by exact Li. rewrite Ni. destruct (is_request (esv_of b)) eqn:R; [lia|]. rewrite (S3 eq_refl). cbn; lia.
        - rewrite nth_error_app2 in Ni by exact Li. assert (Nn : nth_error F i = None) by (apply nth_error_None; exact Li). rewrite Nn.
          rewrite Forall_forall in A0. rewrite (S3 (answer_not_request _ (A0 b (nth_error_In _ _ Ni)))). cbn; lia. }
      destruct (match nth_error F i with Some b => is_request (esv_of b) | None => false end); cbn [length]; lia.
Qed.
