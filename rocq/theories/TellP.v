(** Lemmas for C109. *)
From Verif Require Import PyBase BytesM EsvM MsgM PropM ObjM DbData DbM NodeM LocalM CtrlM
  SpecWire SpecObj SpecReq SpecNode SpecLocal SpecSrv SpecTell DictP BytesP WireP CodecP ObjP MapP ReqP NodeP ProfP LocalP AnswerP SrvP.
Require Import ZifyBool.

Lemma obj_told_app a b : obj_told (a ++ b) = obj_told a ++ obj_told b.
Proof. apply flat_map_app. Qed.
Lemma obj_told_sends l : obj_told (map ev_of l) = [].
Proof. induction l as [|[[[? ?] ?] ?] l IH]; [reflexivity|exact IH]. Qed.
Lemma obj_told_listeners l : Forall listener_event l -> obj_told l = [].
Proof. intros F. induction F as [|e l K _ IH]; [reflexivity|]. destruct e; try contradiction; exact IH. Qed.
Lemma obj_told_map c m l : obj_told (map (fun n => EvObjObs c n m) l) = map (fun n => (c, n, m)) l.
Proof. induction l as [|n l IH]; [reflexivity|]. cbn. f_equal. exact IH. Qed.
Lemma obj_told_users m us : obj_told (map (fun n => EvObs n m) us) = [].
Proof. induction us as [|n l IH]; [reflexivity|exact IH]. Qed.

Lemma request_exists e : existsb (Z.eqb e) [0x60; 0x61; 0x62; 0x63; 0x6E; 0x74] = is_request e.
Proof.
  apply eq_true_iff_eq. rewrite (proj1 (CodecP.L_C10_esv_classification e)). rewrite existsb_exists. split.
  - intros (x & I & E). apply Z.eqb_eq in E. subst. exact I.
  - intros I. exists e. split; [exact I|apply Z.eqb_refl].
Qed.
Lemma sends_only w tr s m a : (exists snds s' m' r, local_send w tr s m (Some a) = (s', tr ++ map ev_of snds, m', r)) /\
  (exists snds s' m' r, local_announce w tr s m = (s', tr ++ map ev_of snds, m', r)).
Proof.
  split.
  - destruct (local_send_ok w tr s m a) as (g' & t & _ & _ & H1 & H2). destruct (encodable_dec m) as [E|E].
    + destruct (H1 E) as (snds & m' & r & Q & _). eauto.
    + destruct (H2 E) as (m' & Q). exists []. cbn [map]. rewrite app_nil_r. eauto.
  - destruct (local_announce_ok w tr s m) as (g' & t & _ & _ & H1 & H2). destruct (encodable_dec m) as [E|E].
    + destruct (H1 E) as (snds & m' & r & Q & _). eauto.
    + destruct (H2 E) as (m' & Q). exists []. cbn [map]. rewrite app_nil_r. eauto.
Qed.
Definition obj_due (s : lnode) (m : msg) : list (Z * nat * msg) :=
  match zget (m_DEOJ m) (ln_objs s) with Some o => map (fun n => (m_DEOJ m, n, m)) (o_obs o) | None => [] end.
Lemma local_told w tr s a m s' tr' r : received_from a m -> local_received w tr s m = (s', tr', r) ->
  exists evs rest, tr' = tr ++ evs /\ obj_due s m = obj_told evs ++ rest /\
    (rest <> [] -> s' = s /\ exists e, r = Err e) /\ (quiet w -> rest = []).
Proof.
  intros Hm. destruct (received_copy a m Hm) as (C & F). unfold local_received, obj_due.
  rewrite self_never, andb_false_r, C. unfold get_object. cbn [new_object set_code fst o_code]. fold (ln_objs s).
  destruct (zget (m_DEOJ m) (ln_objs s)) as [o|].
  2:{ intros H. injection H as <- <- <-. exists [], []. rewrite app_nil_r. split; [reflexivity|]. split; [reflexivity|]. split; [intros X; now destruct X|reflexivity]. }
  destruct (calls w tr _) as [tr1 r1] eqn:K. destruct (calls_split _ _ _ _ _ K) as (done & -> & (rest & ED) & RO & RQ).
  assert (DU : map (fun n => (m_DEOJ m, n, m)) (o_obs o) = obj_told done ++ obj_told rest) by (rewrite <- obj_told_app, <- ED, obj_told_map; reflexivity).
  destruct r1 as [[]|e].
  2:{ intros H. injection H as <- <- <-. exists done, (obj_told rest). split; [reflexivity|]. split; [exact DU|]. split; [eauto|]. intros Q. specialize (RQ Q). discriminate. }
  specialize (RO eq_refl). rewrite <- RO in ED. clear RQ.
  assert (R0 : rest = []) by (apply (app_inv_head done); rewrite app_nil_r; symmetry; exact ED). subst rest. clear ED.
  assert (FIN : forall snds, (tr ++ done) ++ map ev_of snds = tr' -> exists evs rest, tr' = tr ++ evs /\ map (fun n => (m_DEOJ m, n, m)) (o_obs o) = obj_told evs ++ rest /\
    (rest <> [] -> s' = s /\ exists e, r = Err e) /\ (quiet w -> rest = [])).
  { intros snds <-. exists (done ++ map ev_of snds), []. split; [now rewrite app_assoc|]. split; [rewrite obj_told_app, obj_told_sends, app_nil_r; exact DU|].
    split; [intros X; now destruct X|reflexivity]. }
  destruct (obj_message_received o m) as [[o' told] x]. rewrite F. destruct x as [[rsp|]|e].
  - destruct (sends_only w (tr ++ done) (put_obj (m_DEOJ m) o' s) rsp a) as ((sn1 & s1 & m1 & r1 & E1) & (sn2 & s2 & m2 & r2 & E2)).
    destruct (is_notification (m_ESV rsp)); [rewrite E2|rewrite E1]; [destruct r2|destruct r1]; intros H; injection H as <- H <-; eapply FIN; exact H.
  - intros H. injection H as <- H <-. apply (FIN []). cbn [map]. rewrite app_nil_r. exact H.
  - intros H. injection H as <- H <-. apply (FIN []). cbn [map]. rewrite app_nil_r. exact H.
Qed.

Lemma L_C109_message : forall (PS : PySet) w tr s a m s' tr' r, received_from a m -> node_received w tr s m = (s', tr', r) ->
  exists evs rest, tr' = tr ++ evs /\ concerned s m = obj_told evs ++ rest /\
    (quiet w -> rest = []) /\ (rest <> [] -> s' = s /\ exists e, r = Err e).
Proof.
  intros PS w tr s a m s' tr' r Hm. unfold node_received, concerned. rewrite request_exists.
  assert (LOC : local_received w tr s m = (s', tr', r) -> exists evs rest, tr' = tr ++ evs /\ obj_due s m = obj_told evs ++ rest /\
    (quiet w -> rest = []) /\ (rest <> [] -> s' = s /\ exists e, r = Err e)).
  { intros H. destruct (local_told _ _ _ _ _ _ _ _ Hm H) as (evs & rest & X & Y & Z1 & Z2). exists evs, rest. auto. }
  destruct (ln_ctl s) as [c|] eqn:C; [|exact LOC].
  unfold ctl_received. rewrite self_never, andb_false_r.
  assert (RS : is_response (m_ESV m) = negb (is_request (m_ESV m))) by apply CodecP.L_C10_esv_classification.
  rewrite RS. destruct (is_request (m_ESV m)) eqn:R; cbn [negb andb].
  - destruct (local_received w tr s m) as [[s1 tr1] r1] eqn:L. intros H. apply LOC. destruct r1 as [[]|]; exact H.
  - rewrite C. destruct (ctl_response w tr c m) as [[c' tr1] r1] eqn:E. destruct (ctl_response_events _ _ _ _ _ _ _ E) as (evs & -> & F).
    intros H. injection H as _ <- _. exists evs, []. split; [reflexivity|]. split; [rewrite (obj_told_listeners _ F); reflexivity|]. split; [reflexivity|intros X; now destruct X].
Qed.

(** ** Nobody is forgotten *)
Lemma after_call_obs ps o : o_obs (after_call ps o) = o_obs o. Proof. destruct o; reflexivity. Qed.
Lemma read_obs o p : o_obs (fst (read_requested o p)) = o_obs o.
Proof.
  unfold read_requested. destruct (o_handler o) as [| | |h]; try reflexivity; [destruct p; reflexivity|destruct p; reflexivity|].
  destruct (h_read h _ _ _) as [ps r]. apply after_call_obs.
Qed.
Lemma write_obs o p d : o_obs (fst (write_requested o p d)) = o_obs o.
Proof.
  unfold write_requested. destruct (o_handler o) as [| | |h]; try reflexivity.
  destruct (h_write h _ _ _ _) as [ps r]. apply after_call_obs.
Qed.
Lemma store_obs c d o : o_obs (store c d o) = o_obs o.
Proof. unfold store, set_property_data. destruct (get_property c o); [destruct o|]; reflexivity. Qed.
Definition keeps_obs (f : obj -> prop -> obj * res (prop * bool)) : Prop := forall o mp, o_obs (fst (f o mp)) = o_obs o.
Lemma do_write_obs : keeps_obs do_write.
Proof.
  intros o mp. unfold do_write. destruct (get_property _ o) as [p|]; [|reflexivity]. pose proof (write_obs o p (p_data mp)) as W.
  destruct (write_requested o p (p_data mp)) as [o1 [[]|e]]; cbn [fst] in *; [rewrite store_obs|..]; exact W.
Qed.
Lemma do_read_obs : keeps_obs do_read.
Proof.
  intros o mp. unfold do_read. destruct (get_property _ o) as [p|]; [|reflexivity]. pose proof (read_obs o (Some p)) as W.
  destruct (read_requested o (Some p)) as [o1 [[]|e]]; exact W.
Qed.
Lemma do_read_wr_obs : keeps_obs do_read_wr.
Proof.
  intros o mp. unfold do_read_wr. cbv zeta. pose proof (read_obs o (get_property (p_code mp) o)) as W.
  destruct (read_requested o _) as [o1 [[]|e]]; [destruct (get_property _ o)|..]; exact W.
Qed.
Lemma do_plain_obs esv : keeps_obs (do_plain esv).
Proof. unfold do_plain. destruct (is_read_request esv); [exact do_read_obs|]. destruct (is_write_request esv); [exact do_write_obs|]. intros o mp. reflexivity. Qed.
Lemma do_loop_obs f : keeps_obs f -> forall l o, o_obs (fst (do_loop f o l)) = o_obs o.
Proof.
  intros K. induction l as [|mp l IH]; intros o; cbn [do_loop]; [reflexivity|]. pose proof (K o mp) as H.
  destruct (f o mp) as [o1 [[rp acc]|e]]; cbn [fst] in *; [|exact H]. specialize (IH o1). destruct (do_loop f o1 l) as [o2 [[rps n]|e]]; cbn [fst] in *; congruence.
Qed.
Lemma received_obs o m : o_obs (fst (fst (obj_message_received o m))) = o_obs o.
Proof.
  unfold obj_message_received. destruct (negb _); [reflexivity|].
  pose proof (do_loop_obs _ do_write_obs (m_sets m) o) as H1. pose proof (do_loop_obs _ (do_plain_obs (m_ESV m)) (m_props m) o) as H2.
  destruct (o_handler o); [reflexivity| | |]; cbv zeta.
  all: destruct (is_write_read_request (m_ESV m)).
  1, 3, 5: destruct (do_loop do_write o (m_sets m)) as [o1 [[ss n]|e]]; cbn [fst] in *; [|exact H1];
     pose proof (do_loop_obs _ do_read_wr_obs (m_gets m) o1) as H3; destruct (do_loop do_read_wr o1 (m_gets m)) as [o2 [[gs k]|e]]; cbn [fst] in *; [|congruence];
     destruct (response_esv _ _); cbn [fst]; congruence.
  all: destruct (do_loop (do_plain (m_ESV m)) o (m_props m)) as [o1 [[ss n]|e]]; cbn [fst] in *; [|exact H2]; destruct (response_esv _ _); exact H2.
Qed.
Lemma node_keeps_concerned (PS : PySet) w tr s a m s' tr' r : received_from a m -> node_received w tr s m = (s', tr', r) ->
  (forall q, concerned s' q = concerned s q) /\ g_servers (ln_mgr s') = g_servers (ln_mgr s).
Proof.
  intros Hm H. destruct (L_C30_addressed PS w tr s a m s' tr' r Hm H) as (evs & _ & O & _ & _ & _ & _ & G & A & _ & N).
  split; [|exact G].
  assert (CT : (ln_ctl s' = None <-> ln_ctl s = None)).
  { destruct (node_received_spec w tr s a m Hm) as (s1 & ev1 & r1 & E & L & C). rewrite E in H. injection H as -> _ ->.
    destruct (ln_ctl s) as [c|] eqn:EC.
    - destruct (is_request (m_ESV m)) eqn:RQ.
      + specialize (L (or_intror eq_refl)). unfold local_spec in L. destruct (zget (m_DEOJ m) (ln_objs s)) as [o|].
        * destruct L as (oe & sn & _ & _ & [(_ & -> & _)|L]); [rewrite EC; tauto|]. destruct (obj_message_received o m) as [[o' t] x]. destruct L as (_ & g' & -> & _).
          cbn [ln_ctl set_ln_mgr put_obj set_ln_node]. rewrite EC. tauto.
        * destruct L as (-> & _). rewrite EC. tauto.
      + assert (NC : Some c <> None) by discriminate. destruct (C NC eq_refl) as (_ & c' & ->). cbn [ln_ctl set_ln_ctl]. split; discriminate.
    - specialize (L (or_introl eq_refl)). unfold local_spec in L. destruct (zget (m_DEOJ m) (ln_objs s)) as [o|].
      + destruct L as (oe & sn & _ & _ & [(_ & -> & _)|L]); [rewrite EC; tauto|]. destruct (obj_message_received o m) as [[o' t] x]. destruct L as (_ & g' & -> & _).
        cbn [ln_ctl set_ln_mgr put_obj set_ln_node]. rewrite EC. tauto.
      + destruct L as (-> & _). rewrite EC. tauto. }
  intros q. unfold concerned.
  assert (CE : (match ln_ctl s' with Some _ => true | None => false end) = (match ln_ctl s with Some _ => true | None => false end)).
  { destruct (ln_ctl s'), (ln_ctl s); try reflexivity; [destruct CT as [_ CT]; now specialize (CT eq_refl)|destruct CT as [CT _]; now specialize (CT eq_refl)]. }
  rewrite CE. destruct (_ && _); [reflexivity|].
  destruct (Z.eq_dec (m_DEOJ q) (m_DEOJ m)) as [->|NE]; [|rewrite (O _ NE); reflexivity].
  destruct (zget (m_DEOJ m) (ln_objs s)) as [o|] eqn:Z0.
  - destruct (A o eq_refl) as ([->| ->] & _); [reflexivity|]. unfold obj_step. rewrite received_obs. reflexivity.
  - destruct (N eq_refl) as (_ & K & _). rewrite K. cbn [ln_objs set_ln_ctl ln_node]. unfold ln_objs. cbn [ln_node set_ln_ctl]. fold (ln_objs s). rewrite Z0. reflexivity.
Qed.

Lemma L_C109_messages : forall (PS : PySet) w ms s tr s' tr' rs, quiet w -> Forall (fun m => exists a, received_from a m) ms ->
  received_all w tr s ms = (s', tr', rs) ->
  exists evs, tr' = tr ++ evs /\ obj_told evs = flat_map (concerned s) ms.
Proof.
  intros PS w ms. induction ms as [|m ms IH]; intros s tr s' tr' rs Q F; cbn [received_all].
  - intros H. injection H as _ <- _. exists []. rewrite app_nil_r. split; reflexivity.
  - pose proof (Forall_inv F) as (a & Hm). pose proof (Forall_inv_tail F) as F'.
    destruct (node_received w tr s m) as [[s1 tr1] r] eqn:E. destruct (received_all w tr1 s1 ms) as [[s2 tr2] rs2] eqn:E2.
    intros H. injection H as _ <- _.
    destruct (L_C109_message PS w tr s a m s1 tr1 r Hm E) as (ev1 & rest & -> & D & R & _). rewrite (R Q), app_nil_r in D.
    destruct (node_keeps_concerned PS w tr s a m s1 _ r Hm E) as (K & _).
    destruct (IH s1 (tr ++ ev1) s2 tr2 rs2 Q F' E2) as (ev2 & -> & T2).
    exists (ev1 ++ ev2). rewrite app_assoc. split; [reflexivity|]. rewrite obj_told_app, T2, <- D. cbn [flat_map]. f_equal.
    clear - K. induction ms as [|x l IH]; [reflexivity|]. cbn [flat_map]. rewrite K, IH. reflexivity.
Qed.

(** ** Datagrams *)
Lemma notify_users (PS : PySet) w m us : quiet w -> forall tr s, notify w tr s (map OUser us) m = (s, tr ++ map (fun n => EvObs n m) us, Ok tt).
Proof.
  intros Q. induction us as [|n us IH]; intros tr s; cbn [map notify]; [now rewrite app_nil_r|]. cbn [tell call]. rewrite Q, IH, <- app_assoc. reflexivity.
Qed.
Lemma notify_first (PS : PySet) w tr s a m us s' tr' r : quiet w -> received_from a m -> notify w tr s (ONode :: map OUser us) m = (s', tr', r) ->
  (exists evs, tr' = tr ++ evs /\ obj_told evs = concerned s m) /\ (forall q, concerned s' q = concerned s q) /\ g_servers (ln_mgr s') = g_servers (ln_mgr s).
Proof.
  intros Q Hm. cbn [notify tell]. destruct (node_received w tr s m) as [[s1 tr1] r1] eqn:E.
  destruct (L_C109_message PS w tr s a m s1 tr1 r1 Hm E) as (ev1 & rest & -> & D & R & _). rewrite (R Q), app_nil_r in D.
  destruct (node_keeps_concerned PS w tr s a m s1 _ r1 Hm E) as (K & G).
  destruct r1 as [[]|e].
  - rewrite (notify_users PS w m us Q). intros H. injection H as <- <- _. split; [|split; [exact K|exact G]].
    exists (ev1 ++ map (fun n => EvObs n m) us). rewrite app_assoc. split; [reflexivity|]. rewrite obj_told_app, obj_told_users, app_nil_r. symmetry. exact D.
  - intros H. injection H as <- <- _. split; [|split; [exact K|exact G]]. exists ev1. split; [reflexivity|]. symmetry. exact D.
Qed.
Lemma kill_concerned i s q : concerned (kill i s) q = concerned s q.
Proof. destruct (kill_fields i s) as (C & N). unfold concerned, ln_objs. rewrite C, N. reflexivity. Qed.

Lemma L_C109_datagrams : forall (PS : PySet) w l s tr, quiet w -> node_first s -> Forall (fun x => bytes_ok (fst (snd x))) l ->
  exists s' evs, run w tr s l = (s', tr ++ evs) /\ tells s [] l (obj_told evs).
Proof.
  intros PS w l s0 tr0 Q NF.
  enough (G : forall l dead s tr, dead_in dead s0 s -> (forall q, concerned s q = concerned s0 q) -> Forall (fun x => bytes_ok (fst (snd x))) l ->
    exists s' evs, run w tr s l = (s', tr ++ evs) /\ tells s0 dead l (obj_told evs)).
  { intros F. apply (G l [] s0 tr0); auto. intros i. destruct (server_at s0 i); reflexivity. }
  clear l tr0. induction l as [|[i d] l IH]; intros dead s tr D CC F.
  - exists s, []. cbn [run]. rewrite app_nil_r. split; [reflexivity|constructor].
  - pose proof (Forall_inv F) as B. cbn [fst snd] in B. pose proof (Forall_inv_tail F) as F'. cbn [run].
    pose proof (D i) as Di.
    assert (SIL : (In i dead \/ forall v, server_at s0 i = Some v -> s_alive v = false) ->
      exists s' evs, (let '(s1, tr1) := deliver w tr s i d in run w tr1 s1 l) = (s', tr ++ evs) /\ tells s0 dead ((i, d) :: l) (obj_told evs)).
    { intros S. rewrite (kill_dead PS w tr s i d).
      - destruct (IH dead s tr D CC F') as (s' & evs & E & H). exists s', evs. split; [exact E|]. apply tells_silent; assumption.
      - rewrite Di. destruct (server_at s0 i) as [v|]; [|exact I]. destruct S as [S|S].
        + apply existsb_in in S. rewrite S. reflexivity.
        + destruct (existsb _ _); [reflexivity|]. now apply S. }
    destruct (existsb (Nat.eqb i) dead) eqn:ED; [apply SIL; left; now apply existsb_in|].
    destruct (server_at s0 i) as [v|] eqn:V; [|apply SIL; right; discriminate].
    destruct (s_alive v) eqn:A; [|apply SIL; right; intros u U; injection U as <-; exact A]. clear SIL.
    apply existsb_nin in ED.
    assert (Bs : bytes_ok (seen d)) by (apply Forall_forall; intros x Hx; unfold bytes_ok in B; rewrite Forall_forall in B; apply B; unfold seen in Hx; rewrite <- (firstn_skipn 1024 (fst d)); apply in_or_app; now left).
    destruct (parse_bytes new_msg (seen d)) as [f r] eqn:P.
    assert (R : r = Ok true \/ r <> Ok true) by (destruct r as [[|]|]; [left; reflexivity|right; discriminate|right; discriminate]).
    destruct R as [->|R].
    + pose proof (proj1 (parse_new_iff _ _ Bs) P) as Df.
      assert (AR : arrives s i (seen d, snd d) (set_from (Some (snd d)) f)).
      { split; [exists v; split; [exact Di|exact A]|]. split; [unfold seen; cbn [fst]; rewrite firstn_length; lia|]. split; [exact Bs|]. exists f. auto. }
      destruct (deliver_frame PS w tr s i _ _ AR) as (v' & V' & E). assert (v' = v) by congruence. subst v'.
      assert (ES : deliver w tr s i (seen d, snd d) = deliver w tr s i d).
      { unfold deliver. cbn [fst snd]. unfold seen. change RECV_SIZE with 1024%nat. rewrite firstn_firstn, Nat.min_id. reflexivity. }
      rewrite ES in E. rewrite E. destruct (NF i v V) as (us & OB). rewrite OB.
      assert (Hm : received_from (snd d) (set_from (Some (snd d)) f)) by (exists f; split; [apply Df|reflexivity]).
      destruct (notify w tr s (ONode :: map OUser us) (set_from (Some (snd d)) f)) as [[s1 tr1] r1] eqn:NT.
      destruct (notify_first PS w tr s _ _ us s1 tr1 r1 Q Hm NT) as ((ev1 & -> & T1) & K & G1). rewrite CC in T1.
      assert (D1 : dead_in dead s0 s1) by (intros j; specialize (D j); unfold server_at in *; rewrite G1; exact D).
      destruct r1 as [u|e].
      * destruct (IH dead s1 (tr ++ ev1) D1) as (s2 & ev2 & E2 & H2); [intros q; rewrite K; apply CC|exact F'|].
        exists s2, (ev1 ++ ev2). rewrite E2, app_assoc. split; [reflexivity|]. rewrite obj_told_app, T1. exact (tells_frame s0 dead dead i d l _ v f ED V A Df (or_introl eq_refl) H2).
      * destruct (IH (i :: dead) (kill i s1) (tr ++ ev1) (dead_kill _ _ _ _ D1)) as (s2 & ev2 & E2 & H2); [intros q; rewrite kill_concerned, K; apply CC|exact F'|].
        exists s2, (ev1 ++ ev2). rewrite E2, app_assoc. split; [reflexivity|]. rewrite obj_told_app, T1. exact (tells_frame s0 dead (i :: dead) i d l _ v f ED V A Df (or_intror eq_refl) H2).
    + assert (E : deliver w tr s i d = (kill i s, tr)).
      { unfold deliver. unfold server_at in Di. rewrite Di, A. cbn [negb]. change RECV_SIZE with 1024%nat. fold (seen d). rewrite P.
        destruct r as [[|]|e]; [congruence| |reflexivity]. exfalso. pose proof (sp_block_mono_msg _ _ _ P false eq_refl). discriminate. }
      rewrite E.
      destruct (IH (i :: dead) (kill i s) tr) as (s2 & ev2 & E2 & H2); [now apply dead_kill|intros q; rewrite kill_concerned; apply CC|exact F'|].
      exists s2, ev2. split; [exact E2|]. eapply tells_malformed; try eassumption.
      intros (q & Hq). apply (proj2 (parse_new_iff _ _ Bs)) in Hq. rewrite P in Hq. injection Hq as _ Hr. congruence.
Qed.

(** Where nothing raises, all are told. *)
Lemma L_C109_delivery : forall (PS : PySet) w l ms s tr, quiet w -> no_raise w -> ln_ctl s = None -> fitting_node s -> node_first s ->
  arrive_all s l ms -> Forall (knows_gets s) ms ->
  exists s' evs, run w tr s l = (s', tr ++ evs) /\ obj_told evs = flat_map (concerned s) ms.
Proof.
  intros PS w l. induction l as [|[i d] l IH]; intros ms s tr Q N C Ft NF A K.
  - inversion A; subst. exists s, []. cbn [run]. rewrite app_nil_r. repeat split.
  - inversion A as [|x m l0 ms0 A1 A2 E1 E2]; subst. cbn [fst snd] in A1. cbn [run].
    destruct (deliver_frame PS w tr s i d m A1) as (v & V & E).
    assert (Hm : exists a, received_from a m).
    { destruct A1 as (_ & _ & B & f & (F & _) & ->). exists (snd d). exists f. auto. }
    destruct (NF i v V) as (us & OB).
    assert (NN : ~ In ONone (s_obs v)) by (rewrite OB; intros [X|X]; [discriminate|]; apply in_map_iff in X; destruct X as (n & X & _); discriminate).
    destruct (notify_all PS w m (s_obs v) Q N NN tr s C Ft (conj Hm (Forall_inv K))) as (s1 & ev1 & E1 & T1 & C1 & Ft1 & G1 & SV).
    rewrite E1 in E. rewrite E. rewrite OB in E1. destruct Hm as (a & Hm).
    destruct (notify_first PS w tr s a m us s1 _ _ Q Hm E1) as ((ev & X & T) & KC & _). apply app_inv_head in X. subst ev.
    destruct (IH ms0 s1 (tr ++ ev1) Q N C1 Ft1) as (s2 & ev2 & E2 & T2).
    { intros j u U. apply (NF j). unfold server_at in *. rewrite <- G1. exact U. }
    { eapply Forall2_imp; [|exact A2]. cbn beta. intros x y ((u & U & UA) & R). split; [|exact R]. exists u. unfold server_at in *. rewrite G1. auto. }
    { pose proof (Forall_inv_tail K) as K'. clear - K' A2 SV. induction A2 as [|x y l' ms' H1 H2 IH]; [constructor|]. constructor.
      - apply SV. split; [|exact (Forall_inv K')]. destruct H1 as (_ & _ & B & f & (F & _) & ->). exists (snd (snd x)), f. auto.
      - apply IH. exact (Forall_inv_tail K'). }
    exists s2, (ev1 ++ ev2). rewrite E2, app_assoc. split; [reflexivity|]. rewrite obj_told_app, T2, T. cbn [flat_map]. f_equal.
    clear - KC. induction ms0 as [|x l' IH]; [reflexivity|]. cbn [flat_map]. rewrite KC, IH. reflexivity.
Qed.

Lemma L_C109_started : forall w tr s l s1 tr1 ns, local_start w tr s l = (s1, tr1, Ok true) ->
  node_first (fold_left (fun s n => local_add_observer (OUser n) s) ns s1).
Proof.
  intros w tr s l s1 tr1 ns H. destruct (L_C44_start _ _ _ _ _ _ H) as (NE & R & _). red in R.
  set (s2 := fold_left _ ns s1).
  assert (E : s2 = fold_left (fun s o => local_add_observer o s) (map OUser ns) s1).
  { unfold s2. clear. revert s1. induction ns as [|n ns IH]; intros s1; [reflexivity|]. cbn [fold_left map]. apply IH. }
  rewrite E. intros i v. unfold server_at. rewrite add_all_servers, R.
  assert (RG : forall ns, fold_left (fun acc o => fst (subj_add o acc)) (map OUser ns) [ONode] = ONode :: map OUser (firsts Nat.eqb ns)).
  { intros k. pose proof (add_users_obs k []) as AU. change (map OUser []) with (@nil obs) in AU. rewrite AU. f_equal. change (register (map OUser k) = map OUser (firsts Nat.eqb k)).
    destruct (L_C42_observers_partial pyset_nodup good_os [] s new_msg k good_quiet) as (_ & _ & X & _). exact X. }
  intros V. apply nth_error_In in V. apply in_map_iff in V. destruct V as (u & <- & U). apply in_flat_map in U.
  destruct U as (x & _ & U). cbn [s_obs]. assert (UO : s_obs u = [ONode]) by (destruct U as [<-|[<-|[]]]; reflexivity).
  rewrite UO, RG. eauto.
Qed.

(** Findings. *)
Lemma L_C109_self_refuted : forall (PS : PySet) w tr s a m o s' tr' r, quiet w -> ln_ctl s = None -> ln_opts s = 1 -> ln_addr s = Some a -> received_from a m ->
  zget (m_DEOJ m) (ln_objs s) = Some o -> node_received w tr s m = (s', tr', r) ->
  exists evs, tr' = tr ++ evs /\ obj_told evs = map (fun n => (m_DEOJ m, n, m)) (o_obs o).
Proof.
  intros PS w tr s a m o s' tr' r Q C _ _ Hm O H. destruct (L_C109_message PS w tr s a m s' tr' r Hm H) as (evs & rest & -> & D & R & _).
  rewrite (R Q), app_nil_r in D. exists evs. split; [reflexivity|]. rewrite <- D. unfold concerned. rewrite C, O. reflexivity.
Qed.
Lemma L_C109_invalid_refuted : forall (PS : PySet) w tr s a m o s' tr' r, quiet w -> ln_ctl s = None -> received_from a m ->
  zget (m_DEOJ m) (ln_objs s) = Some o ->
  (~ In (m_ESV m) [0x60; 0x61; 0x62; 0x63; 0x6E; 0x74] \/ forall p, In p (m_props m ++ m_sets m ++ m_gets m) -> zget (p_code p) (o_props o) = None) ->
  node_received w tr s m = (s', tr', r) ->
  exists evs, tr' = tr ++ evs /\ obj_told evs = map (fun n => (m_DEOJ m, n, m)) (o_obs o).
Proof.
  intros PS w tr s a m o s' tr' r Q C Hm O _ H. destruct (L_C109_message PS w tr s a m s' tr' r Hm H) as (evs & rest & -> & D & R & _).
  rewrite (R Q), app_nil_r in D. exists evs. split; [reflexivity|]. rewrite <- D. unfold concerned. rewrite C, O. reflexivity.
Qed.
