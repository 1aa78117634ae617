(** Proofs for C103. *)
From Verif Require Import PyBase BytesM EsvM MsgM PropM ObjM DbData DbM NodeM LocalM CtrlM SpecWire SpecReq SpecNode SpecLocal SpecSrv CbM SpecCb DictP BytesP WireP CodecP ObjP ReqP NodeP ProfP LocalP CbP EditM SpecEdit.

(** ** Telling the observers *)
Lemma tell_edited {U} (ed : eds U) key l : calm ed -> forall u tr m,
  ed_tell ed key l u tr m = (fst (edited ed key u l m), tr ++ views ed key u l m, snd (edited ed key u l m), Ok tt).
Proof.
  intros [_ C]. induction l as [|n l IH]; intros u tr m; cbn [ed_tell edited views]; [rewrite app_nil_r; reflexivity|].
  pose proof (C u key n m) as X. destruct (ed_obj ed u key n m) as [[u1 m1] r]. cbn [snd] in X. subst r.
  rewrite IH, <- app_assoc. reflexivity.
Qed.
Lemma views_sent {U} (ed : eds U) key l : forall u m, sent (views ed key u l m) = [].
Proof. induction l as [|n l IH]; intros u m; [reflexivity|]. cbn [views sent flat_map app]. destruct (ed_obj ed u key n m) as [[u1 m1] r]. apply IH. Qed.

Lemma tell_ok {U} (ed : eds U) key l : forall u tr m u1 tr1 e, ed_tell ed key l u tr m = (u1, tr1, e, Ok tt) ->
  (u1, e) = edited ed key u l m /\ tr1 = tr ++ views ed key u l m.
Proof.
  induction l as [|n l IH]; intros u tr m u1 tr1 e H; cbn [ed_tell edited views] in *.
  - split; [congruence|]. rewrite app_nil_r. congruence.
  - destruct (ed_obj ed u key n m) as [[u2 m2] [[]|x]]; [|discriminate].
    destruct (IH _ _ _ _ _ _ H) as (A & B). split; [exact A|]. rewrite B, <- app_assoc. reflexivity.
Qed.

Lemma told_all o e o' told x : obj_message_received o e = (o', told, x) -> told = o_obs o.
Proof.
  unfold obj_message_received. destruct (negb (is_request (m_ESV e))); [congruence|].
  destruct (o_handler o); [congruence| | |];
  (destruct (is_write_read_request (m_ESV e));
   [destruct (do_loop do_write o (m_sets e)) as [o1 [[ss n]|ex]]; [|congruence];
    destruct (do_loop do_read_wr o1 (m_gets e)) as [o2 [[gs k]|ex]]; [|congruence];
    destruct (response_esv _ _); congruence
   |destruct (do_loop (do_plain (m_ESV e)) o (m_props e)) as [o1 [[ps n]|ex]]; [|congruence]; destruct (response_esv _ _); congruence]).
Qed.

Lemma L_C103_edited : forall (U : Type) (w : os) (ed : eds U) a m o u tr s u' s' tr',
  received_from a m -> zget (m_DEOJ m) (ln_objs s) = Some o ->
  ed_local w ed u tr s m = (u', s', tr', Ok tt) ->
  let e := snd (edited ed (m_DEOJ m) u (o_obs o) m) in
  u' = fst (edited ed (m_DEOJ m) u (o_obs o) m) /\
  serves_edited o m e tr (views ed (m_DEOJ m) u (o_obs o) m) s s' tr'.
Proof.
  intros U w ed a m o u tr s u' s' tr' Hm O H. destruct (received_copy a m Hm) as (C & F). unfold ed_local in H.
  rewrite self_never, andb_false_r, C in H. rewrite get_object_int, O in H. cbn [new_object set_code fst o_code] in H.
  destruct (ed_tell _ _ _ _ _ _) as [[[u1 tr1] e] [[]|x]] eqn:T; [|discriminate].
  destruct (tell_ok _ _ _ _ _ _ _ _ _ T) as (X & ->). rewrite <- X. cbn [fst snd].
  set (told := views ed (m_DEOJ m) u (o_obs o) m) in *.
  destruct (obj_message_received o e) as [[o' l] x] eqn:R. pose proof (told_all _ _ _ _ _ R) as ->.
  assert (Z1 : forall g, zget (m_DEOJ m) (ln_objs (set_ln_mgr g (put_obj (m_DEOJ m) o' s))) = Some o').
  { intros g. change (zget (m_DEOJ m) (ln_objs (put_obj (m_DEOJ m) o' s)) = Some o'). rewrite zget_put, Z.eqb_refl. reflexivity. }
  assert (Z2 : forall g c, c <> m_DEOJ m -> zget c (ln_objs (set_ln_mgr g (put_obj (m_DEOJ m) o' s))) = zget c (ln_objs s)).
  { intros g c Nc. change (zget c (ln_objs (put_obj (m_DEOJ m) o' s)) = zget c (ln_objs s)). rewrite zget_put. destruct (Z.eqb_spec c (m_DEOJ m)); [contradiction|reflexivity]. }
  assert (Z0 : put_obj (m_DEOJ m) o' s = set_ln_mgr (ln_mgr s) (put_obj (m_DEOJ m) o' s)) by (destruct s; reflexivity).
  destruct x as [[rsp|]|x]; [| |discriminate].
  2:{ assert (u' = u1 /\ s' = put_obj (m_DEOJ m) o' s /\ tr' = tr ++ told) as (-> & -> & ->) by (repeat split; congruence).
      split; [reflexivity|]. exists o', None. split; [exact R|]. rewrite Z0. split; [apply Z1|]. split; [apply Z2|]. repeat split. }
  pose proof (obj_response_esv _ _ _ _ _ R) as RE. rewrite (response_notification _ RE) in H.
  assert (SR : forall t, set_TID t (set_SEOJ (source (put_obj (m_DEOJ m) o' s) rsp) rsp) = set_TID t (match ln_ctl s with None => rsp | Some _ => set_SEOJ 0x0EF001 rsp end)).
  { intros t. unfold source, NP. cbn [put_obj ln_ctl]. destruct s as [nd pr op mg [c|]]; destruct rsp; reflexivity. }
  assert (TID : forall g' t, stamped (ln_mgr (put_obj (m_DEOJ m) o' s)) rsp g' t -> m_TID rsp <> 0 -> t = m_TID rsp).
  { intros g' t S N. unfold stamped in S. destruct (Z.eqb_spec (m_TID rsp) 0); [contradiction|]. tauto. }
  assert (OI : open_ifs (put_obj (m_DEOJ m) o' s) = open_ifs s) by reflexivity.
  assert (FIN : forall g' t snds, stamped (ln_mgr (put_obj (m_DEOJ m) o' s)) rsp g' t -> g_servers g' = g_servers (ln_mgr s) ->
    (let b := wire (set_TID t (match ln_ctl s with None => rsp | Some _ => set_SEOJ 0x0EF001 rsp end)) in
     if m_ESV rsp =? 0x73 then casts b MULTICAST (open_ifs s) snds else match m_from e with Some a => tries b a (open_ifs s) snds | None => snds = [] end) ->
    serves_edited o m e tr told s (set_ln_mgr g' (put_obj (m_DEOJ m) o' s)) ((tr ++ told) ++ map ev_of snds)).
  { intros g' t snds S G X1. exists o', (Some rsp). split; [exact R|]. split; [apply Z1|]. split; [apply Z2|].
    split; [reflexivity|]. split; [reflexivity|]. split; [exact G|]. exists snds, t. split; [exact (TID g' t S)|]. split; [rewrite <- app_assoc; reflexivity|exact X1]. }
  destruct (m_ESV rsp =? 0x73) eqn:E73.
  - destruct (local_announce_ok w (tr ++ told) (put_obj (m_DEOJ m) o' s) rsp) as (g' & t & S & G & H1 & H2).
    destruct (encodable_dec rsp) as [E|E].
    + destruct (H1 E) as (snds & m' & r & Q & (TR & _) & _). rewrite Q in H. destruct r as [b|ex]; [|discriminate].
      assert (u' = u1 /\ s' = set_ln_mgr g' (put_obj (m_DEOJ m) o' s) /\ tr' = (tr ++ told) ++ map ev_of snds) as (-> & -> & ->) by (repeat split; congruence).
      split; [reflexivity|]. apply (FIN g' t snds S G). cbn zeta. rewrite <- SR, <- OI. exact TR.
    + destruct (H2 E) as (m' & Q). rewrite Q in H. rewrite OI in H. destruct (open_ifs s) eqn:NI; [|discriminate].
      assert (u' = u1 /\ s' = set_ln_mgr g' (put_obj (m_DEOJ m) o' s) /\ tr' = (tr ++ told) ++ map ev_of []) as (-> & -> & ->)
        by (cbn [map]; rewrite app_nil_r; repeat split; congruence).
      split; [reflexivity|]. apply (FIN g' t [] S G). constructor.
  - destruct (m_from e) as [b|] eqn:FE.
    + destruct (local_send_ok w (tr ++ told) (put_obj (m_DEOJ m) o' s) rsp b) as (g' & t & S & G & H1 & H2).
      destruct (encodable_dec rsp) as [E|E].
      * destruct (H1 E) as (snds & m' & r & Q & (TR & _) & _). rewrite Q in H. destruct r as [y|ex]; [|discriminate].
        assert (u' = u1 /\ s' = set_ln_mgr g' (put_obj (m_DEOJ m) o' s) /\ tr' = (tr ++ told) ++ map ev_of snds) as (-> & -> & ->) by (repeat split; congruence).
        split; [reflexivity|]. apply (FIN g' t snds S G). cbn zeta. rewrite <- SR, <- OI. exact TR.
      * destruct (H2 E) as (m' & Q). rewrite Q in H. rewrite OI in H. destruct (open_ifs s) eqn:NI; [|discriminate].
        assert (u' = u1 /\ s' = set_ln_mgr g' (put_obj (m_DEOJ m) o' s) /\ tr' = (tr ++ told) ++ map ev_of []) as (-> & -> & ->)
          by (cbn [map]; rewrite app_nil_r; repeat split; congruence).
        split; [reflexivity|]. apply (FIN g' t [] S G). constructor.
    + unfold local_send, mgr_send in H. set (m0 := match ln_ctl (put_obj (m_DEOJ m) o' s) with None => rsp | Some _ => set_SEOJ NODE_PROFILE_CODE rsp end) in *.
      destruct (assign_stamped (ln_mgr (put_obj (m_DEOJ m) o' s)) m0) as (g' & t & A & S & G). rewrite A in H.
      destruct (send_loop_none w (g_servers g') (tr ++ told) (set_TID t m0)) as (m' & r & Q). rewrite Q in H.
      assert (S2 : stamped (ln_mgr (put_obj (m_DEOJ m) o' s)) rsp g' t).
      { unfold stamped in *. replace (m_TID m0) with (m_TID rsp) in S; [exact S|]. unfold m0. destruct (ln_ctl _); reflexivity. }
      assert (u' = u1 /\ s' = set_ln_mgr g' (put_obj (m_DEOJ m) o' s) /\ tr' = (tr ++ told) ++ map ev_of []) as (-> & -> & ->)
        by (cbn [map]; rewrite app_nil_r; destruct r; repeat split; congruence).
      split; [reflexivity|]. apply (FIN g' t [] S2 G). reflexivity.
Qed.

(** ** A network that does not see the callbacks *)
Section Blind.
Context (w : os) (B : blind w).

Lemma transmit_blind v m a t1 t2 : sent t1 = sent t2 ->
  exists x1 x2 m' r, server_transmit w t1 v m a = (x1, m', r) /\ server_transmit w t2 v m a = (x2, m', r) /\ sent x1 = sent x2.
Proof.
  intros E. unfold server_transmit. destruct (to_string (set_to (Some a) m)) as [st|e]; [|exists t1, t2; eauto].
  destruct (to_bytes (set_to (Some a) m)) as [b|e]; [|exists t1, t2; eauto].
  rewrite (proj1 (B t1 t2 E) (s_if v) b a). destruct (os_sendto w t2 (s_if v) b a) as [n|e];
  (eexists _, _, _, _; split; [reflexivity|]; split; [reflexivity|]; rewrite !sent_app, E; reflexivity).
Qed.
Lemma send_loop_blind a l : forall m t1 t2, sent t1 = sent t2 ->
  exists x1 x2 m' r, send_loop w t1 l m a = (x1, m', r) /\ send_loop w t2 l m a = (x2, m', r) /\ sent x1 = sent x2.
Proof.
  induction l as [|v l IH]; intros m t1 t2 E; cbn [send_loop]; [exists t1, t2; eauto|].
  destruct (s_uni v); [|apply IH; exact E]. unfold server_send.
  destruct a as [a|]; [|apply IH; exact E]. destruct (negb (s_open v)); [apply IH; exact E|].
  destruct (transmit_blind v m a t1 t2 E) as (x1 & x2 & m' & r & -> & -> & E2).
  destruct r as [[|]|e]; [exists x1, x2; eauto 12|apply IH; exact E2|exists x1, x2; eauto 12].
Qed.
Lemma announce_loop_blind l : forall m t1 t2, sent t1 = sent t2 ->
  exists x1 x2 m' r, announce_loop w t1 l m = (x1, m', r) /\ announce_loop w t2 l m = (x2, m', r) /\ sent x1 = sent x2.
Proof.
  induction l as [|v l IH]; intros m t1 t2 E; cbn [announce_loop]; [exists t1, t2; eauto|].
  destruct (s_uni v); [|apply IH; exact E]. unfold server_announce.
  destruct (negb (s_open v)); [apply IH; exact E|].
  destruct (transmit_blind v m MULTICAST t1 t2 E) as (x1 & x2 & m' & r & -> & -> & E2).
  destruct r as [b|e]; [apply IH; exact E2|exists x1, x2; eauto 12].
Qed.
Lemma local_send_blind s m a t1 t2 : sent t1 = sent t2 ->
  exists x1 x2 s' m' r, local_send w t1 s m a = (s', x1, m', r) /\ local_send w t2 s m a = (s', x2, m', r) /\ sent x1 = sent x2.
Proof.
  intros E. unfold local_send, mgr_send. destruct (assign_TID _ _) as [g m1].
  destruct (send_loop_blind a (g_servers g) m1 t1 t2 E) as (x1 & x2 & m' & r & -> & -> & E2).
  exists x1, x2. eauto 12.
Qed.
Lemma local_announce_blind s m t1 t2 : sent t1 = sent t2 ->
  exists x1 x2 s' m' r, local_announce w t1 s m = (s', x1, m', r) /\ local_announce w t2 s m = (s', x2, m', r) /\ sent x1 = sent x2.
Proof.
  intros E. unfold local_announce, mgr_announce. destruct (assign_TID _ _) as [g m1].
  destruct (announce_loop_blind (g_servers g) m1 t1 t2 E) as (x1 & x2 & m' & r & -> & -> & E2).
  destruct r; exists x1, x2; eauto 12.
Qed.
(** The rest of LocalNode.message_received, after the observers. *)
Definition finish_local (tr : trace) (s : lnode) (key : Z) (o : obj) (req : msg) : lnode * trace * res unit :=
  match obj_message_received o req with
  | (o', _, Err e) => (put_obj key o' s, tr, Err e)
  | (o', _, Ok None) => (put_obj key o' s, tr, Ok tt)
  | (o', _, Ok (Some rsp)) =>
      if is_notification (m_ESV rsp) then
        match local_announce w tr (put_obj key o' s) rsp with
        | (s2, tr2, _, Err e) => (s2, tr2, Err e)
        | (s2, tr2, _, Ok _) => (s2, tr2, Ok tt)
        end
      else
        match local_send w tr (put_obj key o' s) rsp (m_from req) with
        | (s2, tr2, _, Err e) => (s2, tr2, Err e)
        | (s2, tr2, _, Ok _) => (s2, tr2, Ok tt)
        end
  end.
Lemma finish_blind s key o req t1 t2 : sent t1 = sent t2 ->
  exists x1 x2 s' r, finish_local t1 s key o req = (s', x1, r) /\ finish_local t2 s key o req = (s', x2, r) /\ sent x1 = sent x2.
Proof.
  intros E. unfold finish_local. destruct (obj_message_received o req) as [[o' told] [[rsp|]|e]]; [|exists t1, t2; eauto|exists t1, t2; eauto].
  destruct (is_notification (m_ESV rsp)).
  - destruct (local_announce_blind (put_obj key o' s) rsp t1 t2 E) as (x1 & x2 & s' & m' & r & -> & -> & E2). destruct r; exists x1, x2; eauto 12.
  - destruct (local_send_blind (put_obj key o' s) rsp (m_from req) t1 t2 E) as (x1 & x2 & s' & m' & r & -> & -> & E2). destruct r; exists x1, x2; eauto 12.
Qed.
End Blind.

Lemma local_quiet w a m o tr s : quiet w -> received_from a m -> zget (m_DEOJ m) (ln_objs s) = Some o ->
  local_received w tr s m = finish_local w (tr ++ map (fun n => EvObjObs (m_DEOJ m) n m) (o_obs o)) s (m_DEOJ m) o m.
Proof.
  intros Q Hm O. destruct (received_copy a m Hm) as (C & F). unfold local_received, finish_local.
  rewrite self_never, andb_false_r, C. rewrite get_object_int, O. cbn [new_object set_code fst o_code].
  rewrite (calls_quiet w _ Q). reflexivity.
Qed.
Lemma ed_local_calm {U} w (ed : eds U) a m o u tr s : calm ed -> received_from a m -> zget (m_DEOJ m) (ln_objs s) = Some o ->
  ed_local w ed u tr s m =
  (let '(s', tr', r) := finish_local w (tr ++ views ed (m_DEOJ m) u (o_obs o) m) s (m_DEOJ m) o (snd (edited ed (m_DEOJ m) u (o_obs o) m)) in
   (fst (edited ed (m_DEOJ m) u (o_obs o) m), s', tr', r)).
Proof.
  intros Q Hm O. destruct (received_copy a m Hm) as (C & F). unfold ed_local, finish_local.
  rewrite self_never, andb_false_r, C. rewrite get_object_int, O. cbn [new_object set_code fst o_code].
  rewrite (tell_edited ed _ _ Q). destruct (obj_message_received _ _) as [[o' told] [[rsp|]|e]]; [|reflexivity|reflexivity].
  destruct (is_notification (m_ESV rsp)).
  - destruct (local_announce _ _ _ _) as [[[s2 tr2] m2] [b|e]]; reflexivity.
  - destruct (local_send _ _ _ _ _) as [[[s2 tr2] m2] [b|e]]; reflexivity.
Qed.
Lemma obs_unsent key l m : sent (map (fun n => EvObjObs key n m) l) = [].
Proof. induction l; [reflexivity|exact IHl]. Qed.

Lemma L_C103_as_received : forall (U : Type) (w : os) (ed : eds U) a a' m o u tr s,
  calm ed -> blind w -> quiet w -> received_from a m -> zget (m_DEOJ m) (ln_objs s) = Some o ->
  let e := snd (edited ed (m_DEOJ m) u (o_obs o) m) in
  received_from a' e -> m_DEOJ e = m_DEOJ m ->
  let '(u1, s1, tr1, r1) := ed_local w ed u tr s m in
  let '(s2, tr2, r2) := local_received w tr s e in
  s1 = s2 /\ sent tr1 = sent tr2 /\ r1 = r2.
Proof.
  intros U w ed a a' m o u tr s C B Q Hm O e He D.
  rewrite (ed_local_calm w ed a m o u tr s C Hm O). fold e.
  assert (O2 : zget (m_DEOJ e) (ln_objs s) = Some o) by (rewrite D; exact O).
  rewrite (local_quiet w a' e o tr s Q He O2), D.
  destruct (finish_blind w B s (m_DEOJ m) o e (tr ++ views ed (m_DEOJ m) u (o_obs o) m) (tr ++ map (fun n => EvObjObs (m_DEOJ m) n e) (o_obs o)))
    as (x1 & x2 & s' & r & -> & -> & E2).
  { rewrite !sent_app, views_sent, obs_unsent. reflexivity. }
  auto.
Qed.

(** ** Observers of the servers *)
Lemma watched {U} (ed : eds U) key l : watching ed -> forall u m, snd (edited ed key u l m) = m.
Proof.
  intros W. induction l as [|n l IH]; intros u m; [reflexivity|]. cbn [edited]. pose proof (W u key n m) as X.
  destruct (ed_obj ed u key n m) as [[u1 m1] r]. cbn [fst snd] in X. subst m1. apply IH.
Qed.
Lemma ed_local_watch {U} w (ed : eds U) : blind w -> quiet w -> calm ed -> watching ed -> forall u t1 t2 s m, sent t1 = sent t2 ->
  exists u' x1 x2 s' r, ed_local w ed u t1 s m = (u', s', x1, r) /\ local_received w t2 s m = (s', x2, r) /\ sent x1 = sent x2.
Proof.
  intros B Q C W u t1 t2 s m E. unfold ed_local, local_received. rewrite self_never, andb_false_r.
  destruct (copy_msg m) as [req|e]; [|exists u, t1, t2; eauto 12].
  destruct (get_object (PInt (m_DEOJ req)) (ln_node s)) as [o|]; [|exists u, t1, t2; eauto 12].
  cbn zeta. set (key := o_code (new_object (PInt (m_DEOJ req)))).
  rewrite (tell_edited ed key (o_obs o) C), (watched ed key (o_obs o) W), (calls_quiet w _ Q).
  set (x1 := t1 ++ views ed key u (o_obs o) req). set (x2 := t2 ++ map (fun n => EvObjObs key n req) (o_obs o)).
  assert (EX : sent x1 = sent x2) by (unfold x1, x2; rewrite !sent_app, views_sent, obs_unsent, E; reflexivity).
  destruct (finish_blind w B s key o req x1 x2 EX) as (y1 & y2 & s' & r & H1 & H2 & E2).
  exists (fst (edited ed key u (o_obs o) req)), y1, y2, s', r. unfold finish_local in H1, H2.
  destruct (obj_message_received o req) as [[o' told] [[rsp|]|e]].
  - destruct (is_notification (m_ESV rsp)).
    + destruct (local_announce w x1 _ _) as [[[a1 b1] c1] [d1|d1]], (local_announce w x2 _ _) as [[[a2 b2] c2] [d2|d2]]; repeat split; congruence.
    + destruct (local_send w x1 _ _ _) as [[[a1 b1] c1] [d1|d1]], (local_send w x2 _ _ _) as [[[a2 b2] c2] [d2|d2]]; repeat split; congruence.
  - repeat split; congruence.
  - repeat split; congruence.
Qed.

(** Listeners that are only told do not disturb the sends. *)
Lemma calls_blind w l t1 t2 : quiet w -> Forall listener_event l -> sent t1 = sent t2 ->
  exists x1 x2, calls w t1 l = (x1, Ok tt) /\ calls w t2 l = (x2, Ok tt) /\ sent x1 = sent x2.
Proof.
  intros Q F E. rewrite !(calls_quiet w l Q). eexists _, _. split; [reflexivity|]. split; [reflexivity|].
  rewrite !sent_app, E. reflexivity.
Qed.
Lemma lis_all (f : nat -> event) l : (forall x, listener_event (f x)) -> Forall listener_event (map f l).
Proof. intros H. induction l; constructor; auto. Qed.

Lemma found_blind w c n t1 t2 : quiet w -> sent t1 = sent t2 ->
  exists x1 x2 c' r, add_found_node w t1 c n = (c', x1, r) /\ add_found_node w t2 c n = (c', x2, r) /\ sent x1 = sent x2.
Proof.
  intros Q E. unfold add_found_node, notify_node_added, notify_node_updated.
  destruct (calls_blind w (map (fun l => EvNodeAdd l n) (c_listeners c)) t1 t2 Q) as (x1 & x2 & H1 & H2 & E2); [apply lis_all; intros; exact I|exact E|].
  exists x1, x2. destruct (sget (node_ip n) (c_found c)); rewrite H1, H2; eauto 12.
Qed.
Lemma update_loop_blind w c key : quiet w -> forall l n o up t1 t2, sent t1 = sent t2 ->
  exists x1 x2 n' o' r, update_loop w t1 c key n o l up = (n', o', x1, r) /\ update_loop w t2 c key n o l up = (n', o', x2, r) /\ sent x1 = sent x2.
Proof.
  intros Q. induction l as [|mp l IH]; intros n o up t1 t2 E; cbn [update_loop]; [exists t1, t2; eauto 12|].
  destruct (get_property (p_code mp) o) as [p|]; [|apply IH; exact E].
  destruct (bytes_eqb (op_data p) (p_data mp)); [apply IH; exact E|]. cbn zeta. unfold notify_property_updated.
  match goal with |- context [calls w t1 ?l0] => destruct (calls_blind w l0 t1 t2 Q) as (x1 & x2 & H1 & H2 & E2); [apply lis_all; intros; exact I|exact E|] end.
  rewrite H1, H2. apply IH. exact E2.
Qed.
Lemma get_node_blind w d a t1 t2 : blind w -> sent t1 = sent t2 -> get_node_loop w t1 d a = get_node_loop w t2 d a.
Proof.
  intros B E. induction d as [|[k n] d IH]; [reflexivity|]. cbn [get_node_loop]. destruct a as [h|ip|].
  - destruct (String.eqb h k); [reflexivity|]. rewrite (proj2 (B t1 t2 E) h). destruct (os_resolve w t2 h) as [x|e]; [|reflexivity].
    cbn [bindr]. destruct (String.eqb x k); [reflexivity|exact IH].
  - destruct (String.eqb ip k); [reflexivity|exact IH].
  - exact IH.
Qed.
Lemma update_blind w c m t1 t2 : quiet w -> blind w -> sent t1 = sent t2 ->
  exists x1 x2 c' r, update_properties w t1 c m = (c', x1, r) /\ update_properties w t2 c m = (c', x2, r) /\ sent x1 = sent x2.
Proof.
  intros Q B E. unfold update_properties, get_node. rewrite (get_node_blind w _ _ t1 t2 B E).
  destruct (get_node_loop w t2 _ _) as [[n|]|e]; [|exists t1, t2; eauto 12|exists t1, t2; eauto 12].
  destruct (get_object (PInt (m_DEOJ m)) n) as [o|]; [|exists t1, t2; eauto 12]. cbn zeta.
  destruct (update_loop_blind w c (o_code (new_object (PInt (m_DEOJ m)))) Q (m_props m) n o false t1 t2 E) as (x1 & x2 & n' & o' & r & -> & -> & E2).
  destruct r as [up|e]; [|exists x1, x2; eauto 12]. destruct up; [|exists x1, x2; eauto 12].
  unfold notify_object_updated, notify_node_updated.
  match goal with |- context [calls w x1 ?l0] => destruct (calls_blind w l0 x1 x2 Q) as (y1 & y2 & H1 & H2 & E3); [apply lis_all; intros; exact I|exact E2|] end.
  rewrite H1, H2.
  match goal with |- context [calls w y1 ?l0] => destruct (calls_blind w l0 y1 y2 Q) as (z1 & z2 & H3 & H4 & E4); [apply lis_all; intros; exact I|exact E3|] end.
  rewrite H3, H4. exists z1, z2. eauto 12.
Qed.
Lemma response_blind (PS : PySet) w c m t1 t2 : quiet w -> blind w -> sent t1 = sent t2 ->
  exists x1 x2 c' r, ctl_response w t1 c m = (c', x1, r) /\ ctl_response w t2 c m = (c', x2, r) /\ sent x1 = sent x2.
Proof.
  intros Q B E. unfold ctl_response. destruct (copy_msg m) as [k|e]; [|exists t1, t2; eauto 12].
  destruct (is_node_profile_message k) as [np|e]; [|exists t1, t2; eauto 12]. cbn zeta.
  assert (F : exists y1 y2 c1 r1, 
    (if np then match new_remote (m_from k) with
       | (_, Err e) => (c, t1, Err e)
       | (n, Ok _) => match remote_parse k n with
         | (_, Err e) => (c, t1, Err e) | (_, Ok false) => (c, t1, Ok tt)
         | (n', Ok true) => match add_found_node w t1 c n' with (c1, tr1, Err e) => (c1, tr1, Err e) | (c1, tr1, Ok _) => (c1, tr1, Ok tt) end end end
     else (c, t1, Ok tt)) = (c1, y1, r1) /\
    (if np then match new_remote (m_from k) with
       | (_, Err e) => (c, t2, Err e)
       | (n, Ok _) => match remote_parse k n with
         | (_, Err e) => (c, t2, Err e) | (_, Ok false) => (c, t2, Ok tt)
         | (n', Ok true) => match add_found_node w t2 c n' with (c1, tr1, Err e) => (c1, tr1, Err e) | (c1, tr1, Ok _) => (c1, tr1, Ok tt) end end end
     else (c, t2, Ok tt)) = (c1, y2, r1) /\ sent y1 = sent y2).
  { destruct np; [|exists t1, t2; eauto 12]. destruct (new_remote (m_from k)) as [n [[]|e]]; [|exists t1, t2; eauto 12].
    destruct (remote_parse k n) as [n' [[|]|e]]; [|exists t1, t2; eauto 12|exists t1, t2; eauto 12].
    destruct (found_blind w c n' t1 t2 Q E) as (x1 & x2 & c' & r & -> & -> & E2). destruct r; exists x1, x2; eauto 12. }
  destruct F as (y1 & y2 & c1 & r1 & -> & -> & E1). destruct r1 as [[]|e]; [|exists y1, y2; eauto 12].
  assert (G : exists z1 z2 c2 r2,
    (if is_notification (m_ESV k) || is_read_response (m_ESV k) then update_properties w y1 c1 k else (c1, y1, Ok tt)) = (c2, z1, r2) /\
    (if is_notification (m_ESV k) || is_read_response (m_ESV k) then update_properties w y2 c1 k else (c1, y2, Ok tt)) = (c2, z2, r2) /\ sent z1 = sent z2).
  { destruct (is_notification (m_ESV k) || is_read_response (m_ESV k)); [apply update_blind; assumption|exists y1, y2; eauto 12]. }
  destruct G as (z1 & z2 & c2 & r2 & -> & -> & E2). destruct r2 as [[]|e]; [|exists z1, z2; eauto 12].
  destruct (is_waiting c2); [|exists z1, z2; eauto 12]. destruct (c_req c2) as [rq|]; [|exists z1, z2; eauto 12].
  destruct (is_response_message rq k); exists z1, z2; eauto 12.
Qed.
Lemma ed_received_watch (PS : PySet) {U} w (ed : eds U) : blind w -> quiet w -> calm ed -> watching ed -> forall u t1 t2 s m, sent t1 = sent t2 ->
  exists u' x1 x2 s' r, ed_received w ed u t1 s m = (u', s', x1, r) /\ node_received w t2 s m = (s', x2, r) /\ sent x1 = sent x2.
Proof.
  intros B Q C W u t1 t2 s m E. unfold ed_received, node_received. destruct (ln_ctl s) as [c|].
  2:{ exact (ed_local_watch w ed B Q C W u t1 t2 s m E). }
  unfold ed_ctl, ctl_received. rewrite self_never, andb_false_r. cbn zeta.
  assert (F : exists u' x1 x2 s' r,
    (if is_request (m_ESV m) then ed_local w ed u t1 s m else (u, s, t1, Ok tt)) = (u', s', x1, r) /\
    (if is_request (m_ESV m) then local_received w t2 s m else (s, t2, Ok tt)) = (s', x2, r) /\ sent x1 = sent x2).
  { destruct (is_request (m_ESV m)); [exact (ed_local_watch w ed B Q C W u t1 t2 s m E)|exists u, t1, t2; eauto 12]. }
  destruct F as (u' & x1 & x2 & s' & r & -> & -> & E1). destruct r as [[]|e]; [|exists u', x1, x2; eauto 12].
  destruct (negb (is_response (m_ESV m))); [exists u', x1, x2; eauto 12|].
  destruct (ln_ctl s') as [c'|]; [|exists u', x1, x2; eauto 12].
  destruct (response_blind PS w c' m x1 x2 Q B E1) as (y1 & y2 & c2 & r & -> & -> & E2). exists u', y1, y2; eauto 12.
Qed.
Lemma ed_users (PS : PySet) {U} w (ed : eds U) s l : quiet w -> calm ed -> forall u t1 t2 m1 m2, sent t1 = sent t2 ->
  exists u' x1 x2, ed_notify w ed u t1 s (map OUser l) m1 = (u', s, x1, Ok tt) /\ notify w t2 s (map OUser l) m2 = (s, x2, Ok tt) /\ sent x1 = sent x2.
Proof.
  intros Q C. induction l as [|n l IH]; intros u t1 t2 m1 m2 E; cbn [map ed_notify notify ed_hear tell]; [exists u, t1, t2; auto|].
  pose proof (proj1 C u n m1) as X. destruct (ed_srv ed u n m1) as [[u1 m1'] r]. cbn [snd] in X. subst r.
  unfold call. rewrite (Q t2 (EvObs n m2)). apply IH. rewrite !sent_app, E. reflexivity.
Qed.
Lemma keep_servers_local w tr s m s' tr' r : local_received w tr s m = (s', tr', r) -> g_servers (ln_mgr s') = g_servers (ln_mgr s).
Proof.
  unfold local_received. rewrite self_never, andb_false_r. intros H.
  destruct (copy_msg m) as [req|e]; [|assert (s' = s) as -> by congruence; reflexivity].
  destruct (get_object _ _) as [o|]; [|assert (s' = s) as -> by congruence; reflexivity]. cbn zeta in H.
  destruct (calls w tr _) as [tr1 [[]|e]]; [|assert (s' = s) as -> by congruence; reflexivity].
  destruct (obj_message_received o req) as [[o' told] [[rsp|]|e]].
  2,3: match goal with H : (put_obj ?k ?o1 ?s0, _, _) = (?s1, _, _) |- _ => assert (s1 = put_obj k o1 s0) as -> by congruence end; reflexivity.
  destruct (is_notification (m_ESV rsp)).
  - match goal with H : context [local_announce w ?t ?s1 ?x] |- _ => destruct (local_announce_pre w t s1 x) as (g' & evs & m' & r' & E & G); rewrite E in H;
      assert (s' = set_ln_mgr g' s1) as -> by (destruct r'; congruence); exact G end.
  - match goal with H : context [local_send w ?t ?s1 ?x ?a] |- _ => destruct (local_send_pre w t s1 x a) as (g' & evs & m' & r' & E & G); rewrite E in H;
      assert (s' = set_ln_mgr g' s1) as -> by (destruct r'; congruence); exact G end.
Qed.
Lemma keep_servers_node (PS : PySet) w tr s m s' tr' r : node_received w tr s m = (s', tr', r) -> g_servers (ln_mgr s') = g_servers (ln_mgr s).
Proof.
  unfold node_received. destruct (ln_ctl s) as [c|]; [|apply keep_servers_local]. unfold ctl_received. rewrite self_never, andb_false_r. cbn zeta. intros H.
  destruct (if is_request (m_ESV m) then local_received w tr s m else (s, tr, Ok tt)) as [[s1 tr1] r1] eqn:R.
  assert (G : g_servers (ln_mgr s1) = g_servers (ln_mgr s)).
  { destruct (is_request (m_ESV m)); [exact (keep_servers_local _ _ _ _ _ _ _ R)|]. assert (s1 = s) as -> by congruence. reflexivity. }
  destruct r1 as [[]|e]; [|assert (s' = s1) as -> by congruence; exact G].
  destruct (negb (is_response (m_ESV m))); [assert (s' = s1) as -> by congruence; exact G|].
  destruct (ln_ctl s1) as [c1|]; [|assert (s' = s1) as -> by congruence; exact G].
  destruct (ctl_response w tr1 c1 m) as [[c2 tr2] r2]. assert (s' = set_ln_ctl (Some c2) s1) as -> by congruence. exact G.
Qed.
Lemma first_same s s' : g_servers (ln_mgr s') = g_servers (ln_mgr s) -> node_first s -> node_first s'.
Proof. unfold node_first. intros ->. auto. Qed.
Lemma upd_in {A} (l : list A) : forall i x y, In y (upd l i x) -> y = x \/ In y l.
Proof. induction l as [|a l IH]; intros [|i] x y H; cbn [upd] in H; [contradiction|contradiction|destruct H as [<-|H]; [now left|right; now right]|]. destruct H as [<-|H]; [right; now left|]. destruct (IH _ _ _ H); [now left|right; now right]. Qed.
Lemma first_kill i s : node_first s -> node_first (kill i s).
Proof.
  intros F. unfold kill. destruct (nth_error (g_servers (ln_mgr s)) i) as [v|] eqn:N; [|exact F].
  intros x Hx. cbn [set_ln_mgr ln_mgr set_servers g_servers] in Hx. destruct (upd_in _ _ _ _ Hx) as [->|I]; [|exact (F x I)].
  cbn [s_obs]. exact (F v (nth_error_In _ _ N)).
Qed.
Lemma ed_deliver_watch (PS : PySet) {U} w (ed : eds U) : blind w -> quiet w -> calm ed -> watching ed -> forall u t1 t2 s i d, node_first s -> sent t1 = sent t2 ->
  exists u' x1 x2 s', ed_deliver w ed u t1 s i d = (u', s', x1) /\ deliver w t2 s i d = (s', x2) /\ sent x1 = sent x2 /\ node_first s'.
Proof.
  intros B Q C W u t1 t2 s i d F E. unfold ed_deliver, deliver.
  assert (KF : node_first (kill i s)) by (apply first_kill, F).
  destruct (nth_error (g_servers (ln_mgr s)) i) as [v|] eqn:V; [|exists u, t1, t2, s; auto].
  destruct (negb (s_alive v)); [exists u, t1, t2, s; auto|].
  destruct (parse_bytes new_msg (firstn RECV_SIZE (fst d))) as [m [[|]|e]]; [|exists u, t1, t2, s; auto|exists u, t1, t2, (kill i s); auto].
  cbn zeta. destruct (to_string _) as [st|e]; [|exists u, t1, t2, (kill i s); auto].
  destruct (F v (nth_error_In _ _ V)) as (l & ->). cbn [ed_notify notify ed_hear tell].
  destruct (ed_received_watch PS w ed B Q C W u t1 t2 s (set_from (Some (snd d)) m) E) as (u' & x1 & x2 & s' & r & -> & H2 & E2). rewrite H2.
  pose proof (first_same s s' (keep_servers_node PS _ _ _ _ _ _ _ H2) F) as F2.
  destruct r as [[]|e]; [|exists u', x1, x2, (kill i s'); pose proof (first_kill i s' F2); auto].
  destruct (ed_users PS w ed s' l Q C u' x1 x2 (set_from (Some (snd d)) m) (set_from (Some (snd d)) m) E2) as (u2 & y1 & y2 & -> & -> & E3).
  exists u2, y1, y2, s'. auto.
Qed.
Lemma L_C103_node : forall (PS : PySet) (U : Type) (w : os) (ed : eds U) l u tr s,
  blind w -> quiet w -> calm ed -> watching ed -> node_first s ->
  let '(u1, s1, tr1) := ed_run w ed u tr s l in
  let '(s2, tr2) := run w tr s l in
  s1 = s2 /\ sent tr1 = sent tr2.
Proof.
  intros PS U w ed l u tr s B Q C W F.
  assert (G : forall l u t1 t2 s, node_first s -> sent t1 = sent t2 ->
    let '(u1, s1, tr1) := ed_run w ed u t1 s l in let '(s2, tr2) := run w t2 s l in s1 = s2 /\ sent tr1 = sent tr2).
  { clear l u tr s F. induction l as [|[i d] l IH]; intros u t1 t2 s F E; cbn [ed_run run]; [auto|].
    destruct (ed_deliver_watch PS w ed B Q C W u t1 t2 s i d F E) as (u' & x1 & x2 & s' & -> & -> & E2 & F2). apply IH; assumption. }
  apply G; auto.
Qed.
Lemma L_C103_started : forall w tr s l s' tr' ns, local_start w tr s l = (s', tr', Ok true) ->
  node_first (fold_left (fun s n => local_add_observer (OUser n) s) ns s').
Proof.
  intros w tr s l s' tr' ns H.
  assert (F : node_first s').
  { destruct (local_start_shape _ _ _ _ _ _ _ H) as [(_ & _ & R & _)|[(X & _)|(e & X)]]; [|discriminate|discriminate].
    unfold running in R. intros v Hv. rewrite R in Hv. apply in_flat_map in Hv. destruct Hv as (i & _ & [<-|[<-|[]]]); exists []; reflexivity. }
  clear H. revert s' F. induction ns as [|n ns IH]; intros s' F; [exact F|]. cbn [fold_left]. apply IH.
  intros v Hv. unfold local_add_observer, mgr_add_observer in Hv. cbn [set_ln_mgr ln_mgr set_servers g_servers] in Hv.
  apply in_map_iff in Hv. destruct Hv as (v0 & <- & I0). destruct (F v0 I0) as (l0 & E0). unfold server_add_observer. cbn [s_obs]. rewrite E0.
  unfold subj_add. destruct (existsb _ _); cbn [fst]; [exists l0; reflexivity|]. exists (l0 ++ [n]). rewrite map_app. reflexivity.
Qed.
Lemma L_C103_records : forall (PS : PySet) (U : Type) (w : os) (ed : eds U) u tr s m u' s' tr' r,
  ln_ctl s <> None -> ed_received w ed u tr s m = (u', s', tr', r) ->
  (In (m_ESV m) [0x60; 0x61; 0x62; 0x63; 0x6E; 0x74] -> ln_ctl s' = ln_ctl s) /\
  (~ In (m_ESV m) [0x60; 0x61; 0x62; 0x63; 0x6E; 0x74] -> u' = u /\ node_received w tr s m = (s', tr', r)).
Proof.
  intros PS U w ed u tr s m u' s' tr' r N H. unfold ed_received, node_received in *. destruct (ln_ctl s) as [c|] eqn:CT; [|congruence].
  unfold ed_ctl in H. unfold ctl_received. rewrite self_never, andb_false_r in *. cbn zeta in *.
  assert (RQ : is_request (m_ESV m) = true <-> In (m_ESV m) [0x60; 0x61; 0x62; 0x63; 0x6E; 0x74]).
  { unfold is_request, WRITE_REQUEST, WRITE_REQUEST_RESPONSE_REQUIRED, READ_REQUEST, NOTIFICATION_REQUEST, WRITE_READ_REQUEST, NOTIFICATION_RESPONSE_REQUIRED. cbn [In].
    destruct (Z.eqb_spec (m_ESV m) 0x60), (Z.eqb_spec (m_ESV m) 0x61), (Z.eqb_spec (m_ESV m) 0x62), (Z.eqb_spec (m_ESV m) 0x63), (Z.eqb_spec (m_ESV m) 0x6E), (Z.eqb_spec (m_ESV m) 0x74); split; intros; try reflexivity; try lia; discriminate. }
  split; intros I.
  - pose proof (proj2 RQ I) as R. rewrite R in H.
    destruct (ed_local w ed u tr s m) as [[[u1 s1] tr1] r1] eqn:L.
    assert (K : ln_ctl s1 = Some c).
    { unfold ed_local in L. rewrite self_never, andb_false_r in L.
      destruct (copy_msg m) as [req|e]; [|assert (s1 = s) as -> by congruence; exact CT].
      destruct (get_object _ _) as [o|]; [|assert (s1 = s) as -> by congruence; exact CT]. cbn zeta in L.
      destruct (ed_tell _ _ _ _ _ _) as [[[u2 tr2] e2] [[]|x]]; [|assert (s1 = s) as -> by congruence; exact CT].
      destruct (obj_message_received o e2) as [[o' told] [[rsp|]|e]].
      - destruct (is_notification (m_ESV rsp)).
        + match type of L with context [local_announce w ?t ?s0 ?x] => destruct (local_announce_pre w t s0 x) as (g' & evs & m' & r' & E & G); rewrite E in L;
            assert (s1 = set_ln_mgr g' s0) as -> by (destruct r'; congruence); exact CT end.
        + match type of L with context [local_send w ?t ?s0 ?x ?a] => destruct (local_send_pre w t s0 x a) as (g' & evs & m' & r' & E & G); rewrite E in L;
            assert (s1 = set_ln_mgr g' s0) as -> by (destruct r'; congruence); exact CT end.
      - match type of L with (_, ?s0, _, _) = _ => assert (s1 = s0) as -> by congruence end. exact CT.
      - match type of L with (_, ?s0, _, _) = _ => assert (s1 = s0) as -> by congruence end. exact CT. }
    destruct r1 as [[]|e]; [|assert (s' = s1) as -> by congruence; rewrite K; reflexivity].
    unfold is_response in H. rewrite R in H. cbn [negb] in H. assert (s' = s1) as -> by congruence. rewrite K. reflexivity.
  - destruct (is_request (m_ESV m)) eqn:R; [exfalso; apply I, RQ; reflexivity|]. unfold is_response in *. rewrite R in *. cbn [negb] in *.
    rewrite CT in *. destruct (ctl_response w tr c m) as [[c' tr2] r2]. split; congruence.
Qed.

(** An observer that redirects, renumbers and rewrites. *)
Definition meddle : eds unit := mkeds (fun u _ m => (u, m, Ok tt)) (fun u _ _ m =>
  (u, mkmsg 99 (m_SEOJ m) (m_DEOJ m) (m_ESV m) [mkprop 0x80 [0x31]] [] [] (Some ("10.0.0.66"%string, 3610)) None, Ok tt)).
Lemma L_C103_listen_refuted : exists (ed : eds unit) (m : msg) (s s' : lnode) tr' i,
  calm ed /\ received_from ("10.0.0.9"%string, 3610) m /\
  m_TID m = 4 /\ m_ESV m = 0x61 /\ m_props m = [mkprop 0x80 [0x30]] /\ m_DEOJ m = 0x029101 /\
  ed_local good_os ed tt [] s m = (tt, s', tr', Ok tt) /\
  mem_at s' 0x029101 0x80 = Some [0x31] /\
  sent tr' = [(i, wire (mkmsg 99 0x029101 0x05FF01 0x71 [mkprop 0x80 []] [] [] None None), ("10.0.0.66"%string, 3610), Ok 14)].
Proof.
  exists meddle, (mkmsg 4 0x05FF01 0x029101 0x61 [mkprop 0x80 [0x30]] [] [] (Some ("10.0.0.9"%string, 3610)) None).
  exists (fst (fst (local_start good_os [] (mkln (mknode None [(0x029101, mkobj 0x029101 "lamp" [(0x80, mkoprop 0x80 [0x30] 1 1 1)] HSuper 0 [7%nat] CSuper)]) InTable 1 new_manager None) []))).
  eexists _, _, _. split; [split; reflexivity|]. split.
  { eexists (mkmsg 4 0x05FF01 0x029101 0x61 [mkprop 0x80 [0x30]] [] [] None None). split; [|reflexivity]. split; [|split].
    - unfold encodable. cbn. split; [unfold byte_ok; lia|]. split; [cbn; lia|]. constructor; [|constructor]. split; [unfold byte_ok; cbn; lia|cbn; lia].
    - split; [|split; constructor]. constructor; [|constructor]. unfold data_ok, bytes_ok. cbn. constructor; [unfold byte_ok; lia|constructor].
    - reflexivity. }
  repeat match goal with |- _ /\ _ => split end; vm_compute; reflexivity.
Qed.

(** ** What observers of servers are told *)
Lemma notify_passed (PS : PySet) {U} w (ed : eds U) s l : calm ed -> forall u tr m,
  ed_notify w ed u tr s (map OUser l) m = (fst (passed ed u l m), s, tr ++ map (fun x => EvObs (fst x) (snd x)) (snd (passed ed u l m)), Ok tt).
Proof.
  intros C. induction l as [|n l IH]; intros u tr m; cbn [map ed_notify ed_hear passed]; [rewrite app_nil_r; reflexivity|].
  pose proof (proj1 C u n m) as X. destruct (ed_srv ed u n m) as [[u1 m1] r]. cbn [snd] in X. subst r.
  rewrite IH. cbn [fst snd map]. rewrite <- app_assoc. reflexivity.
Qed.
Lemma L_C103_heard : forall (PS : PySet) (U : Type) (w : os) (ed : eds U) u tr s i d m v l,
  calm ed -> arrives s i d m -> server_at s i = Some v -> s_obs v = ONode :: map OUser l ->
  let '(u1, s1, tr1, r) := ed_received w ed u tr s m in
  let '(u2, s2, tr2) := ed_run w ed u tr s [(i, d)] in
  match r with
  | Ok _ => u2 = fst (passed ed u1 l m) /\ s2 = s1 /\ tr2 = tr1 ++ map (fun x => EvObs (fst x) (snd x)) (snd (passed ed u1 l m))
  | Err _ => u2 = u1 /\ tr2 = tr1
  end.
Proof.
  intros PS U w ed u tr s i d m v l C ((v' & V & A) & L & B & f & F & ->) V' O. assert (v' = v) by congruence. subst v'.
  cbn [ed_run]. unfold ed_deliver. unfold server_at in V. rewrite V, A. cbn [negb].
  rewrite firstn_all2 by exact L. rewrite (proj2 (parse_new_iff _ _ B) F).
  assert (exists t, to_string f = Ok t) as (t & T). { unfold to_string. rewrite to_bytes_ok by apply F. cbn. eauto. }
  cbn zeta. change (to_string (set_from (Some (snd d)) f)) with (to_string f). rewrite T, O. cbn [ed_notify ed_hear].
  destruct (ed_received w ed u tr s (set_from (Some (snd d)) f)) as [[[u1 s1] tr1] [x|e]]; [|split; reflexivity].
  rewrite (notify_passed PS w ed s1 l C). split; [reflexivity|]. split; reflexivity.
Qed.
Lemma L_C103_goes_on : forall (PS : PySet) (U : Type) (w : os) (ed : eds U) u tr s l r,
  ed_run w ed u tr s (l ++ r) = let '(u1, s1, tr1) := ed_run w ed u tr s l in ed_run w ed u1 tr1 s1 r.
Proof.
  intros PS U w ed u tr s l r. revert u tr s. induction l as [|[i d] l IH]; intros u tr s; [reflexivity|].
  cbn [app ed_run]. destruct (ed_deliver w ed u tr s i d) as [[u1 s1] tr1]. apply IH.
Qed.

(** *** Observers that raise *)
Lemma tell_fails {U} (ed : eds U) key l : forall u tr m,
  match failing ed key u l m with
  | Some (u1, evs, x) => exists e, ed_tell ed key l u tr m = (u1, tr ++ evs, e, Err x)
  | None => exists u1 tr1 e, ed_tell ed key l u tr m = (u1, tr1, e, Ok tt)
  end.
Proof.
  induction l as [|n l IH]; intros u tr m; cbn [failing ed_tell]; [eauto|].
  destruct (ed_obj ed u key n m) as [[u1 m1] [[]|x]]; [|eauto].
  specialize (IH u1 (tr ++ [EvObjObs key n m]) m1). destruct (failing ed key u1 l m1) as [[[u2 evs] x]|]; [|exact IH].
  destruct IH as (e & ->). exists e. rewrite <- app_assoc. reflexivity.
Qed.
Lemma L_C103_raises : forall (U : Type) (w : os) (ed : eds U) a m o u tr s,
  received_from a m -> zget (m_DEOJ m) (ln_objs s) = Some o ->
  forall u1 evs x, failing ed (m_DEOJ m) u (o_obs o) m = Some (u1, evs, x) ->
  ed_local w ed u tr s m = (u1, s, tr ++ evs, Err x).
Proof.
  intros U w ed a m o u tr s Hm O u1 evs x F. destruct (received_copy a m Hm) as (C & _). unfold ed_local.
  rewrite self_never, andb_false_r, C. rewrite get_object_int, O. cbn [new_object set_code fst o_code].
  pose proof (tell_fails ed (m_DEOJ m) (o_obs o) u tr m) as T. rewrite F in T. destruct T as (e & ->). reflexivity.
Qed.
