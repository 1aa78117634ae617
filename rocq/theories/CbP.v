(** Proofs about callbacks that use their node (C98). *)
From Verif Require Import PyBase BytesM EsvM MsgM PropM ObjM DbData DbM NodeM LocalM CtrlM SpecWire SpecReq SpecNode SpecLocal CbM SpecCb DictP BytesP WireP CodecP ObjP ReqP NodeP ProfP LocalP.
Local Open Scope nat_scope.

Ltac cbd H := match type of H with context [match ?x with _ => _ end] => let E := fresh "E" in destruct x eqn:E end.

Lemma mem_put_data key p d s c x : mem_at (put_data key p d s) c x = if ((c =? key) && (x =? p) && isSome (mem_at s c x))%Z%bool then Some d else mem_at s c x.
Proof.
  unfold put_data. destruct (zget key (ln_objs s)) as [o|] eqn:E.
  - unfold mem_at. rewrite zget_put. destruct (Z.eqb_spec c key) as [->|N]; cbn [andb]; [|reflexivity]. rewrite E.
    unfold store, set_property_data, get_property. destruct (zget p (o_props o)) as [y|] eqn:Y; cbn [fst o_props set_o_props].
    + rewrite dget_dset by apply zeqb_eq. destruct (Z.eqb_spec x p) as [->|]; cbn [andb]; [rewrite Y; reflexivity|reflexivity].
    + destruct (Z.eqb_spec x p) as [->|]; cbn [andb]; [rewrite Y; reflexivity|reflexivity].
  - unfold mem_at. destruct (Z.eqb_spec c key) as [->|N]; cbn [andb]; [|reflexivity]. rewrite E. rewrite andb_false_r. reflexivity.
Qed.
Lemma put_data_at key p d s : put_at key p d s (put_data key p d s).
Proof.
  unfold put_at, put_data. destruct (zget key (ln_objs s)) as [o|] eqn:E; [|rewrite E; repeat split].
  split; [|split; [|repeat split]].
  - rewrite zget_put, Z.eqb_refl. unfold store, set_property_data, get_property. destruct (zget p (o_props o)) as [y|] eqn:Y; cbn [fst o_props set_o_props].
    + split; [reflexivity|]. intros x. rewrite dget_dset by apply zeqb_eq. destruct (Z.eqb_spec x p) as [->|]; [rewrite Y; reflexivity|reflexivity].
    + split; [destruct o; reflexivity|]. intros x. destruct (Z.eqb_spec x p) as [->|]; [rewrite Y; reflexivity|reflexivity].
  - intros c N. rewrite zget_put. destruct (Z.eqb_spec c key); [contradiction|reflexivity].
Qed.

Section Cb.
Context {U : Type} (w : os) (cb : cbs U).

Lemma did_trans key req q1 q2 q3 : did w cb key req q1 q2 -> did w cb key req q2 q3 -> did w cb key req q1 q3.
Proof. induction 1; intros D; [exact D|eapply did_observer; eauto|eapply did_ask_read; eauto|eapply did_ask_write; eauto|eapply did_store; eauto]. Qed.

Lemma tell_did key req l : forall q q1 r, cb_tell w cb key req l q = (q1, r) -> did w cb key req q q1.
Proof.
  induction l as [|n l IH]; intros q q1 r H; cbn [cb_tell] in H; [injection H as <- _; constructor|].
  destruct (run_prog _ _ _ _) as [q0 [[]|e]] eqn:E.
  - eapply did_observer; [exact E|]. eapply IH. exact H.
  - injection H as <- _. eapply did_observer; [exact E|constructor].
Qed.
Lemma ask_read_did key o p req q q1 r : ask_read w cb key o p q = (q1, r) -> did w cb key req q q1.
Proof. unfold ask_read. destruct (o_handler o); intros H; try (injection H as <- _; constructor). eapply did_ask_read; [exact H|constructor]. Qed.
Lemma ask_write_did key o p d req q q1 r : ask_write w cb key o p d q = (q1, r) -> did w cb key req q q1.
Proof. unfold ask_write. destruct (o_handler o); intros H; try (injection H as <- _; constructor). eapply did_ask_write; [exact H|constructor]. Qed.

End Cb.

(** What no callback changes. *)
Definition keeps (s s' : lnode) : Prop :=
  g_servers (ln_mgr s') = g_servers (ln_mgr s) /\ ln_ctl s' = ln_ctl s /\ ln_opts s' = ln_opts s /\ ln_addr s' = ln_addr s /\
  (forall c x, isSome (mem_at s' c x) = isSome (mem_at s c x)) /\
  (forall c, match zget c (ln_objs s'), zget c (ln_objs s) with
             | Some o', Some o => o_handler o' = o_handler o /\ o_obs o' = o_obs o /\
                forall x, match zget x (o_props o'), zget x (o_props o) with Some y', Some y => y' = set_op_data (op_data y') y | None, None => True | _, _ => False end
             | None, None => True | _, _ => False end).
Lemma set_data_id y : y = set_op_data (op_data y) y.
Proof. destruct y; reflexivity. Qed.
Lemma keeps_refl s : keeps s s.
Proof.
  repeat split. intros c. destruct (zget c (ln_objs s)) as [o|]; [|exact I]. split; [reflexivity|]. split; [reflexivity|].
  intros x. destruct (zget x (o_props o)) as [y|]; [apply set_data_id|exact I].
Qed.
Lemma keeps_trans a b c : keeps a b -> keeps b c -> keeps a c.
Proof.
  intros (A1 & A2 & A3 & A4 & A5 & A6) (B1 & B2 & B3 & B4 & B5 & B6).
  split; [congruence|]. split; [congruence|]. split; [congruence|]. split; [congruence|]. split; [intros; rewrite B5; apply A5|].
  intros k. specialize (A6 k). specialize (B6 k). destruct (zget k (ln_objs a)), (zget k (ln_objs b)), (zget k (ln_objs c)); try contradiction; [|exact I].
  destruct A6 as (E1 & E2 & E3), B6 as (F1 & F2 & F3). split; [congruence|]. split; [congruence|].
  intros x. specialize (E3 x). specialize (F3 x).
  destruct (zget x (o_props o)) as [y|], (zget x (o_props o0)) as [y0|], (zget x (o_props o1)) as [y1|]; try contradiction; [|exact I].
  rewrite F3. cbn [op_data set_op_data]. rewrite E3. reflexivity.
Qed.
Lemma keeps_mgr g s : g_servers g = g_servers (ln_mgr s) -> keeps s (set_ln_mgr g s).
Proof. intros G. split; [exact G|]. exact (proj2 (keeps_refl s)). Qed.
Lemma keeps_put code p d s o : zget code (ln_objs s) = Some o -> keeps s (put_obj code (fst (set_property_data p d o)) s).
Proof.
  intros E. repeat split.
  - intros c x. pose proof (mem_put_data code p d s c x) as M. unfold put_data in M. rewrite E in M. unfold store in M. rewrite M.
    destruct (_ && _ && _)%bool eqn:B; [|reflexivity]. apply andb_prop in B. destruct B as [_ B]. rewrite B. reflexivity.
  - intros c. rewrite zget_put. destruct (Z.eqb_spec c code) as [->|N].
    + rewrite E. unfold set_property_data, get_property. destruct (zget p (o_props o)) as [y|] eqn:Y; cbn [fst o_handler o_obs set_o_props o_props].
      * split; [reflexivity|]. split; [reflexivity|]. intros x. rewrite dget_dset by apply zeqb_eq.
        destruct (Z.eqb_spec x p) as [->|]; [rewrite Y; destruct y; reflexivity|]. destruct (zget x (o_props o)); [apply set_data_id|exact I].
      * split; [reflexivity|]. split; [reflexivity|]. intros x. destruct (zget x (o_props o)); [apply set_data_id|exact I].
    + exact (proj2 (proj2 (proj2 (proj2 (proj2 (keeps_refl s))))) c).
Qed.
Lemma keeps_put_data code p d s : keeps s (put_data code p d s).
Proof. unfold put_data. destruct (zget code (ln_objs s)) as [o|] eqn:E; [now apply keeps_put|apply keeps_refl]. Qed.

Lemma send_loop_none w l : forall tr m, exists m' r, send_loop w tr l m None = (tr, m', r).
Proof.
  induction l as [|v l IH]; intros tr m; cbn [send_loop server_send]; [eexists _, _; reflexivity|].
  destruct (s_uni v); cbn [andb]; apply IH.
Qed.
Lemma local_send_pre w tr s m a : exists g' evs m' r, local_send w tr s m a = (set_ln_mgr g' s, tr ++ evs, m', r) /\ g_servers g' = g_servers (ln_mgr s).
Proof.
  destruct a as [a|].
  - destruct (local_send_ok w tr s m a) as (g' & t & _ & G & H1 & H2). destruct (encodable_dec m) as [E|E].
    + destruct (H1 E) as (snds & m' & r & -> & _). exists g', (map ev_of snds), m', r. auto.
    + destruct (H2 E) as (m' & ->). exists g', []. rewrite app_nil_r. eexists _, _. auto.
  - unfold local_send, mgr_send. destruct (assign_stamped (ln_mgr s) (match ln_ctl s with None => m | Some _ => set_SEOJ NODE_PROFILE_CODE m end)) as (g' & t & -> & _ & G).
    destruct (send_loop_none w (g_servers g') tr (set_TID t (match ln_ctl s with None => m | Some _ => set_SEOJ NODE_PROFILE_CODE m end))) as (m' & r & ->).
    exists g', []. rewrite app_nil_r. eexists _, _. auto.
Qed.
Lemma local_announce_pre w tr s m : exists g' evs m' r, local_announce w tr s m = (set_ln_mgr g' s, tr ++ evs, m', r) /\ g_servers g' = g_servers (ln_mgr s).
Proof.
  destruct (local_announce_ok w tr s m) as (g' & t & _ & G & H1 & H2). destruct (encodable_dec m) as [E|E].
  - destruct (H1 E) as (snds & m' & r & -> & _). exists g', (map ev_of snds), m', r. auto.
  - destruct (H2 E) as (m' & ->). exists g', []. rewrite app_nil_r. eexists _, _. auto.
Qed.
Lemma get_object_int c s : get_object (PInt c) (ln_node s) = zget c (ln_objs s).
Proof. reflexivity. Qed.

(** What a program leaves alone. *)
Lemma run_keeps {U A} w (c : prog U A) : forall tr s q1 r, run_prog w c tr s = (q1, r) ->
  keeps s (q_s q1) /\ exists evs, q_tr q1 = tr ++ evs.
Proof.
  induction c as [u r0|code p k IH|code p d k IH|m k IH|m a k IH]; intros tr s q1 r H; cbn [run_prog] in H.
  - assert (q1 = mkcst u tr s) as -> by congruence. split; [apply keeps_refl|]. exists []. now rewrite app_nil_r.
  - destruct (get_object _ _); eapply IH; exact H.
  - rewrite get_object_int in H. destruct (zget code (ln_objs s)) as [o|] eqn:E; [|eapply IH; exact H].
    destruct (IH _ _ _ _ _ H) as (K & T). split; [|exact T]. eapply keeps_trans; [apply (keeps_put code p d s o E)|exact K].
  - destruct (local_announce_pre w tr s m) as (g' & evs & m' & r' & Q & G). rewrite Q in H.
    destruct (IH _ _ _ _ _ _ H) as (K & (e2 & T)). split; [eapply keeps_trans; [apply keeps_mgr, G|exact K]|]. exists (evs ++ e2). rewrite T, app_assoc. reflexivity.
  - destruct (local_send_pre w tr s m a) as (g' & evs & m' & r' & Q & G). rewrite Q in H.
    destruct (IH _ _ _ _ _ _ H) as (K & (e2 & T)). split; [eapply keeps_trans; [apply keeps_mgr, G|exact K]|]. exists (evs ++ e2). rewrite T, app_assoc. reflexivity.
Qed.
Lemma put_at_keeps code p d s s' : put_at code p d s s' -> keeps s s'.
Proof.
  intros (P & O & M & C & OP & AD).
  assert (X : forall c, match zget c (ln_objs s'), zget c (ln_objs s) with
             | Some o', Some o => o_handler o' = o_handler o /\ o_obs o' = o_obs o /\
                forall x, match zget x (o_props o'), zget x (o_props o) with Some y', Some y => y' = set_op_data (op_data y') y | None, None => True | _, _ => False end
             | None, None => True | _, _ => False end).
  { intros c. destruct (Z.eqb_spec c code) as [->|N].
    - destruct (zget code (ln_objs s)) as [o|], (zget code (ln_objs s')) as [o'|]; try contradiction; [|exact I].
      destruct P as (P & Q). split; [rewrite P; reflexivity|]. split; [rewrite P; reflexivity|]. intros x. rewrite Q.
      destruct (x =? p)%Z; destruct (zget x (o_props o)) as [y|]; cbn [option_map]; try exact I; [destruct y; reflexivity|apply set_data_id].
    - rewrite (O c N). exact (proj2 (proj2 (proj2 (proj2 (proj2 (keeps_refl s))))) c). }
  split; [now rewrite M|]. split; [exact C|]. split; [exact OP|]. split; [exact AD|]. split; [|exact X].
  intros c x. unfold mem_at. specialize (X c). destruct (zget c (ln_objs s')) as [o'|], (zget c (ln_objs s)) as [o|]; try contradiction; [|reflexivity].
  destruct X as (_ & _ & X). specialize (X x). destruct (zget x (o_props o')), (zget x (o_props o)); try contradiction; reflexivity.
Qed.
Lemma did_keeps {U} w (cb : cbs U) key req q q1 : did w cb key req q q1 -> keeps (q_s q) (q_s q1) /\ exists evs, q_tr q1 = q_tr q ++ evs.
Proof.
  induction 1 as [q|n q q1 r q2 R _ IH|p q q1 r q2 R _ IH|p d q q1 r q2 R _ IH|p d q s1 q2 S _ IH].
  - split; [apply keeps_refl|]. exists []. now rewrite app_nil_r.
  - destruct (run_keeps w _ _ _ _ _ R) as (K & (e1 & T)), IH as (K2 & (e2 & T2)). split; [eapply keeps_trans; eassumption|].
    exists ([EvObjObs key n req] ++ e1 ++ e2). rewrite T2, T, <- !app_assoc. reflexivity.
  - destruct (run_keeps w _ _ _ _ _ R) as (K & (e1 & T)), IH as (K2 & (e2 & T2)). split; [eapply keeps_trans; eassumption|].
    exists (e1 ++ e2). rewrite T2, T, <- !app_assoc. reflexivity.
  - destruct (run_keeps w _ _ _ _ _ R) as (K & (e1 & T)), IH as (K2 & (e2 & T2)). split; [eapply keeps_trans; eassumption|].
    exists (e1 ++ e2). rewrite T2, T, <- !app_assoc. reflexivity.
  - destruct IH as (K2 & (e2 & T2)). cbn [q_s q_tr] in *. split; [eapply keeps_trans; [eapply put_at_keeps; exact S|exact K2]|]. exists e2. exact T2.
Qed.

Section Cb2.
Context {U : Type} (w : os) (cb : cbs U).
(** One property: what happened, and the answered property. *)
Definition step_ok (rd : bool) key req (f : cst U -> prop -> cst U * res (prop * bool)) : Prop :=
  forall q mp q1 r, f q mp = (q1, r) -> did w cb key req q q1 /\
  forall rp acc, r = Ok (rp, acc) -> p_code rp = p_code mp /\
    (rd = true -> (p_data rp = [] /\ acc = false) \/ (mem_at (q_s q1) key (p_code rp) = Some (p_data rp) /\ acc = true)).

Lemma current_mem key o p (q q1 : cst U) mp : zget key (ln_objs (q_s q)) = Some o -> get_property (p_code mp) o = Some p -> keeps (q_s q) (q_s q1) ->
  mem_at (q_s q1) key (p_code mp) = Some (cb_current key (p_code mp) p (q_s q1)).
Proof.
  intros E G (_ & _ & _ & _ & K & _). specialize (K key (p_code mp)). unfold mem_at, cb_current, current in *. rewrite E in K.
  unfold get_property in *. rewrite G in K. destruct (zget key (ln_objs (q_s q1))) as [o1|]; [|discriminate].
  destruct (zget (p_code mp) (o_props o1)); [reflexivity|discriminate].
Qed.
Lemma write_step key req : step_ok false key req (cb_do_write w cb key).
Proof.
  intros q mp q1 r H. unfold cb_do_write in H. destruct (zget key (ln_objs (q_s q))) as [o|]; [|injection H as <- <-; split; [constructor|discriminate]].
  destruct (get_property (p_code mp) o) as [p|].
  2:{ injection H as <- <-. split; [constructor|]. intros rp acc [= <- <-]. split; [reflexivity|discriminate]. }
  destruct (ask_write _ _ _ _ _ _ _) as [q0 [[]|e]] eqn:A; pose proof (ask_write_did w cb key o p (p_data mp) req q q0 _ A) as D.
  - injection H as <- <-. split; [|intros rp acc [= <- <-]; split; [reflexivity|discriminate]].
    eapply did_trans; [exact D|]. eapply did_store; [apply put_data_at|constructor].
  - injection H as <- <-. split; [exact D|]. intros rp acc [= <- <-]. split; [reflexivity|discriminate].
  - injection H as <- <-. split; [exact D|discriminate].
Qed.
Lemma read_step key req : step_ok true key req (cb_do_read w cb key).
Proof.
  intros q mp q1 r H. unfold cb_do_read in H. destruct (zget key (ln_objs (q_s q))) as [o|] eqn:O; [|injection H as <- <-; split; [constructor|discriminate]].
  destruct (get_property (p_code mp) o) as [p|] eqn:G.
  2:{ injection H as <- <-. split; [constructor|]. intros rp acc [= <- <-]. split; [reflexivity|]. intros _. now left. }
  destruct (ask_read _ _ _ _ _ _) as [q0 [[]|e]] eqn:A; pose proof (ask_read_did w cb key o _ req q q0 _ A) as D; pose proof (proj1 (did_keeps w cb _ _ _ _ D)) as K.
  - injection H as <- <-. split; [exact D|]. intros rp acc [= <- <-]. split; [reflexivity|]. intros _. right. split; [|reflexivity]. cbn [p_code p_data].
    exact (current_mem key o p q q0 mp O G K).
  - injection H as <- <-. split; [exact D|]. intros rp acc [= <- <-]. split; [reflexivity|]. intros _. now left.
  - injection H as <- <-. split; [exact D|discriminate].
Qed.
Lemma read_wr_step key req : step_ok true key req (cb_do_read_wr w cb key).
Proof.
  intros q mp q1 r H. unfold cb_do_read_wr in H. destruct (zget key (ln_objs (q_s q))) as [o|] eqn:O; [|injection H as <- <-; split; [constructor|discriminate]].
  cbv zeta in H.
  destruct (ask_read _ _ _ _ _ _) as [q0 [[]|e]] eqn:A; pose proof (ask_read_did w cb key o _ req q q0 _ A) as D; pose proof (proj1 (did_keeps w cb _ _ _ _ D)) as K.
  - destruct (get_property (p_code mp) o) as [p|] eqn:G; injection H as <- <-; (split; [exact D|]); [|discriminate].
    intros rp acc [= <- <-]. split; [reflexivity|]. intros _. right. split; [|reflexivity]. cbn [p_code p_data].
    exact (current_mem key o p q q0 mp O G K).
  - injection H as <- <-. split; [exact D|]. intros rp acc [= <- <-]. split; [reflexivity|]. intros _. now left.
  - injection H as <- <-. split; [exact D|discriminate].
Qed.
Lemma skip_step key req : step_ok false key req (@cb_do_skip U).
Proof. intros q mp q1 r [= <- <-]. split; [constructor|]. intros rp acc [= <- <-]. split; [reflexivity|discriminate]. Qed.

Lemma loop_did rd key req f : step_ok rd key req f -> forall l q q1 r, cb_loop f q l = (q1, r) ->
  did w cb key req q q1 /\ forall ps n, r = Ok (ps, n) -> map p_code ps = map p_code l /\
    (rd = true -> Forall (fun rp => p_data rp = [] \/ exists qi, did w cb key req q qi /\ did w cb key req qi q1 /\ mem_at (q_s qi) key (p_code rp) = Some (p_data rp)) ps).
Proof.
  intros F. induction l as [|mp l IH]; intros q q1 r H; cbn [cb_loop] in H.
  - injection H as <- <-. split; [constructor|]. intros ps n [= <- <-]. split; [reflexivity|constructor].
  - destruct (f q mp) as [q0 [[rp acc]|e]] eqn:E; destruct (F _ _ _ _ E) as (D & X).
    2:{ injection H as <- <-. split; [exact D|discriminate]. }
    destruct (X rp acc eq_refl) as (PC & RD).
    destruct (cb_loop f q0 l) as [q2 [[rps n]|e]] eqn:L; destruct (IH _ _ _ L) as (D2 & X2).
    2:{ injection H as <- <-. split; [eapply did_trans; eassumption|discriminate]. }
    injection H as <- <-. split; [eapply did_trans; eassumption|]. intros ps n0 [= <- <-]. destruct (X2 rps n eq_refl) as (M & FA).
    split; [cbn [map]; congruence|]. intros Q. constructor.
    + destruct (RD Q) as [(-> & _)|(A & _)]; [now left|]. right. exists q0. auto.
    + eapply Forall_impl; [|exact (FA Q)]. intros a [A|(qi & A1 & A2 & A3)]; [now left|]. right. exists qi. split; [eapply did_trans; eassumption|auto].
Qed.
End Cb2.
Section Cb3.
Context {U : Type} (w : os) (cb : cbs U).
Lemma wr_is e : is_write_read_request e = (e =? 0x6E)%Z.
Proof. unfold is_write_read_request, WRITE_READ_REQUEST. destruct (e =? 0x6E)%Z; reflexivity. Qed.
Lemma response_in e all x : response_esv e all = Some x -> In x (answer_esv e).
Proof.
  unfold response_esv, answer_esv, WRITE_REQUEST, WRITE_REQUEST_RESPONSE_REQUIRED, READ_REQUEST, WRITE_READ_REQUEST, NOTIFICATION_REQUEST, NOTIFICATION_RESPONSE_REQUIRED.
  repeat match goal with |- context [if (?a =? ?b)%Z then _ else _] => destruct (a =? b)%Z end; destruct all; intros H; inversion H; cbn; auto.
Qed.
Lemma response_none e all : response_esv e all = None -> ~ In e [0x61; 0x62; 0x63; 0x6E]%Z.
Proof.
  intros H I. cbn [In] in I. destruct I as [<-|[<-|[<-|[<-|[]]]]]; destruct all; discriminate.
Qed.
Lemma not_request e : is_request e = false -> ~ In e [0x61; 0x62; 0x63; 0x6E]%Z.
Proof. intros H I. cbn [In] in I. destruct I as [<-|[<-|[<-|[<-|[]]]]]; discriminate. Qed.

Lemma one_block e : is_request e = true -> e <> 0x6E%Z -> two_blocks e = false.
Proof.
  unfold is_request, WRITE_REQUEST, WRITE_REQUEST_RESPONSE_REQUIRED, READ_REQUEST, WRITE_READ_REQUEST, NOTIFICATION_REQUEST, NOTIFICATION_RESPONSE_REQUIRED.
  repeat match goal with |- context [if (?a =? ?b)%Z then _ else _] => destruct (Z.eqb_spec a b) as [->|] end; intros H N; try discriminate; try reflexivity; contradiction.
Qed.
Lemma plain_step key req e : e <> 0x6E%Z -> step_ok w cb (e =? 0x62)%Z key req (cb_do_plain w cb key e).
Proof.
  intros N. unfold cb_do_plain, is_read_request, READ_REQUEST, WRITE_READ_REQUEST. destruct (Z.eqb_spec e 0x62) as [->|N2]; [exact (read_step w cb key req)|].
  destruct (Z.eqb_spec e 0x6E) as [->|_]; [contradiction|]. destruct (is_write_request e); [exact (write_step w cb key req)|exact (skip_step w cb key req)].
Qed.

(** The answer to a request. *)
Lemma object_did key o req q q1 r : plain req -> cb_object w cb key o req q = (q1, r) ->
  did w cb key req q q1 /\
  (r = Ok None -> o_handler o = HNone \/ ~ In (m_ESV req) [0x61; 0x62; 0x63; 0x6E]%Z) /\
  (forall rsp, r = Ok (Some rsp) -> answer_to req rsp /\
     (m_ESV req = 0x62%Z \/ m_ESV req = 0x6E%Z -> Forall (fun rp => p_data rp = [] \/
        exists qi, did w cb key req q qi /\ did w cb key req qi q1 /\ mem_at (q_s qi) key (p_code rp) = Some (p_data rp))
        (if (m_ESV req =? 0x62)%Z then m_props rsp else m_gets rsp))).
Proof.
  intros PL H. unfold cb_object in H. destruct (is_request (m_ESV req)) eqn:RQ; cbn [negb] in H.
  2:{ injection H as <- <-. split; [constructor|]. split; [intros _; right; now apply not_request|discriminate]. }
  destruct (o_handler o) eqn:OH.
  { injection H as <- <-. split; [constructor|]. split; [intros _; now left|discriminate]. }
  all: cbv zeta in H; rewrite wr_is in H; unfold plain in PL.
  all: destruct (Z.eqb_spec (m_ESV req) 0x6E) as [W|NW].
  all: try (rewrite W in PL; change (two_blocks 0x6E) with true in PL; cbn [negb] in PL;
    destruct (cb_loop _ q (m_sets req)) as [qa [[ss n]|e]] eqn:L1;
    destruct (loop_did w cb false key req _ (write_step w cb key req) _ _ _ _ L1) as (D1 & X1);
    [|injection H as <- <-; split; [exact D1|]; split; discriminate];
    destruct (cb_loop _ qa (m_gets req)) as [qb [[gs k]|e]] eqn:L2;
    destruct (loop_did w cb true key req _ (read_wr_step w cb key req) _ _ _ _ L2) as (D2 & X2);
    [|injection H as <- <-; split; [eapply did_trans; eassumption|]; split; discriminate];
    destruct (X1 _ _ eq_refl) as (M1 & _); destruct (X2 _ _ eq_refl) as (M2 & F2);
    destruct (response_esv _ _) as [x|] eqn:RE; injection H as <- <-; (split; [eapply did_trans; eassumption|]);
    [split; [discriminate|]; intros rsp [= <-]; split;
      [unfold answer_to; cbn; repeat split; try assumption; [exact (response_in _ _ _ RE)|rewrite PL; reflexivity]
      |intros _; rewrite W; change (0x6E =? 0x62)%Z with false; cbn; eapply Forall_impl; [|exact (F2 eq_refl)];
       intros a [A|(qi & A1 & A2 & A3)]; [now left|]; right; exists qi; split; [eapply did_trans; eassumption|auto]]
    |split; [intros _; right; eapply response_none; exact RE|discriminate]]).
  all: rewrite (one_block _ RQ NW) in PL; destruct PL as (P1 & P2);
    destruct (cb_loop _ q (m_props req)) as [qa [[ps n]|e]] eqn:L1;
    destruct (loop_did w cb (m_ESV req =? 0x62)%Z key req _ (plain_step key req (m_ESV req) NW) _ _ _ _ L1) as (D1 & X1);
    [|injection H as <- <-; split; [exact D1|]; split; discriminate];
    destruct (X1 _ _ eq_refl) as (M1 & F1);
    destruct (response_esv _ _) as [x|] eqn:RE; injection H as <- <-; (split; [exact D1|]);
    [split; [discriminate|]; intros rsp [= <-]; split;
      [unfold answer_to; cbn; repeat split; try assumption; [exact (response_in _ _ _ RE)|rewrite P1; reflexivity|rewrite P2; reflexivity]
      |intros [E|E]; [rewrite E in *; change (0x62 =? 0x62)%Z with true in *; exact (F1 eq_refl)|contradiction]]
    |split; [intros _; right; eapply response_none; exact RE|discriminate]].
Qed.

Lemma received_plain_msg a m : received_from a m -> plain m.
Proof. intros (f & (E & T & C) & ->). unfold plain. cbn [set_from m_ESV m_props m_sets m_gets]. destruct (two_blocks (m_ESV f)) eqn:B; [|split]; rewrite <- C; cbn; rewrite B; reflexivity. Qed.

Lemma answers_last_ok : forall m a o q q',
  received_from a m -> zget (m_DEOJ m) (ln_objs (q_s q)) = Some o ->
  cb_received w cb q m = (q', Ok tt) ->
  answers_last w cb o a m q q'.
Proof.
  intros m a o q q' RF O H. destruct (received_copy a m RF) as (C & F). pose proof (received_plain_msg a m RF) as PL.
  unfold cb_received in H. rewrite self_never, andb_false_r, C in H. rewrite get_object_int, O in H.
  cbn [new_object set_code fst o_code] in H.
  destruct (cb_tell _ _ _ _ _ _) as [q1 [[]|e]] eqn:T; [|discriminate]. pose proof (tell_did w cb _ _ _ _ _ _ T) as D1.
  destruct (cb_object _ _ _ _ _ _) as [q2 [[rsp|]|e]] eqn:OB; [| |discriminate]; destruct (object_did _ _ _ _ _ _ PL OB) as (D2 & XN & XS);
  pose proof (did_trans w cb _ _ _ _ _ D1 D2) as D.
  2:{ exists q2. split; [exact D|]. left. split; [congruence|]. exact (XN eq_refl). }
  exists q2. split; [exact D|]. right. destruct (XS rsp eq_refl) as (AT & RD).
  destruct (did_keeps w cb _ _ _ _ D) as ((KS & KC & _) & _).
  assert (OI : open_ifs (q_s q2) = open_ifs (q_s q)) by (unfold open_ifs; rewrite KS; reflexivity).
  assert (RN : is_notification (m_ESV rsp) = (m_ESV rsp =? 0x73)%Z).
  { apply response_notification. destruct AT as (_ & _ & _ & I & _). unfold answer_esv in I.
    repeat match type of I with context [if ?b then _ else _] => destruct b end; cbn in I |- *; repeat destruct I as [<-|I]; try contradiction; auto 12. }
  assert (SR : source (q_s q2) rsp = match ln_ctl (q_s q) with None => m_DEOJ m | Some _ => 0x0EF001%Z end).
  { unfold source, NP. rewrite KC. destruct AT as (_ & S & _). rewrite S. reflexivity. }
  assert (RD2 : (m_ESV m = 0x62%Z \/ m_ESV m = 0x6E%Z) -> Forall (fun rp => p_data rp = [] \/
        exists qi, did w cb (m_DEOJ m) m q qi /\ did w cb (m_DEOJ m) m qi q2 /\ mem_at (q_s qi) (m_DEOJ m) (p_code rp) = Some (p_data rp))
        (if (m_ESV m =? 0x62)%Z then m_props rsp else m_gets rsp)).
  { intros E. eapply Forall_impl; [|exact (RD E)]. intros x [X|(qi & X1 & X2 & X3)]; [now left|]. right. exists qi. split; [exact (did_trans w cb _ _ _ _ _ D1 X1)|auto]. }
  assert (TID : forall g' t, stamped (ln_mgr (q_s q2)) rsp g' t -> m_TID m <> 0%Z -> t = m_TID m).
  { intros g' t S N. unfold stamped in S. destruct AT as (TI & _). rewrite TI in S. destruct (Z.eqb_spec (m_TID m) 0); [contradiction|]. tauto. }
  unfold cb_answer in H. rewrite RN, F in H.
  exists rsp. destruct (m_ESV rsp =? 0x73)%Z.
  - destruct (local_announce_ok w (q_tr q2) (q_s q2) rsp) as (g' & t & S & G & H1 & H2). destruct (encodable_dec rsp) as [E|E].
    + destruct (H1 E) as (snds & m' & r & Q & (TR & _) & _). rewrite Q in H. exists snds, t.
      assert (q' = mkcst (q_u q2) (q_tr q2 ++ map ev_of snds) (set_ln_mgr g' (q_s q2))) as -> by congruence.
      split; [exact AT|]. split; [exact (TID g' t S)|]. split; [reflexivity|]. split; [reflexivity|]. split; [reflexivity|].
      split; [rewrite <- SR, <- OI; exact TR|exact RD2].
    + destruct (H2 E) as (m' & Q). rewrite Q in H. destruct (open_ifs (q_s q2)) eqn:NI; [|discriminate]. exists [], t.
      assert (q' = mkcst (q_u q2) (q_tr q2) (set_ln_mgr g' (q_s q2))) as -> by congruence.
      split; [exact AT|]. split; [exact (TID g' t S)|]. split; [reflexivity|]. split; [cbn [q_tr map]; rewrite app_nil_r; reflexivity|]. split; [reflexivity|].
      split; [rewrite <- OI; constructor|exact RD2].
  - destruct (local_send_ok w (q_tr q2) (q_s q2) rsp a) as (g' & t & S & G & H1 & H2). destruct (encodable_dec rsp) as [E|E].
    + destruct (H1 E) as (snds & m' & r & Q & (TR & _) & _). rewrite Q in H. exists snds, t.
      assert (q' = mkcst (q_u q2) (q_tr q2 ++ map ev_of snds) (set_ln_mgr g' (q_s q2))) as -> by congruence.
      split; [exact AT|]. split; [exact (TID g' t S)|]. split; [reflexivity|]. split; [reflexivity|]. split; [reflexivity|].
      split; [rewrite <- SR, <- OI; exact TR|exact RD2].
    + destruct (H2 E) as (m' & Q). rewrite Q in H. destruct (open_ifs (q_s q2)) eqn:NI; [|discriminate]. exists [], t.
      assert (q' = mkcst (q_u q2) (q_tr q2) (set_ln_mgr g' (q_s q2))) as -> by congruence.
      split; [exact AT|]. split; [exact (TID g' t S)|]. split; [reflexivity|]. split; [cbn [q_tr map]; rewrite app_nil_r; reflexivity|]. split; [reflexivity|].
      split; [rewrite <- OI; constructor|exact RD2].
Qed.
End Cb3.


Lemma L_C98_answer : forall (U : Type) (w : os) (cb : cbs U) m a o q q',
  received_from a m -> zget (m_DEOJ m) (ln_objs (q_s q)) = Some o ->
  cb_received w cb q m = (q', Ok tt) ->
  answers_last w cb o a m q q'.
Proof. intros U w cb m a o q q'. exact (answers_last_ok w cb m a o q q'). Qed.
(** ** Objects nobody stores into *)
Lemma run_spares {U A} w x (c : prog U A) : no_put x c -> forall tr s q1 r, run_prog w c tr s = (q1, r) -> zget x (ln_objs (q_s q1)) = zget x (ln_objs s).
Proof.
  induction c as [u r0|code p k IH|code p d k IH|m k IH|m a k IH]; intros N tr s q1 r H; cbn [run_prog no_put] in *.
  - assert (q1 = mkcst u tr s) as -> by congruence. reflexivity.
  - destruct (get_object _ _); eapply IH; [|exact H| |exact H]; apply N.
  - destruct N as (NC & N). rewrite get_object_int in H. destruct (zget code (ln_objs s)) as [o|] eqn:E; [|eapply IH; [apply N|exact H]].
    rewrite (IH _ (N _) _ _ _ _ H), zget_put. destruct (Z.eqb_spec x code); [congruence|reflexivity].
  - destruct (local_announce_pre w tr s m) as (g' & evs & m' & r' & Q & G). rewrite Q in H. rewrite (IH _ _ (N _ _) _ _ _ _ H). reflexivity.
  - destruct (local_send_pre w tr s m a) as (g' & evs & m' & r' & Q & G). rewrite Q in H. rewrite (IH _ _ (N _ _) _ _ _ _ H). reflexivity.
Qed.
Lemma did_spares {U} w (cb : cbs U) x key req q q1 : spares cb x -> x <> key -> did w cb key req q q1 -> zget x (ln_objs (q_s q1)) = zget x (ln_objs (q_s q)).
Proof.
  intros (S1 & S2 & S3) N. induction 1 as [q|n q q1 r q2 R _ IH|p q q1 r q2 R _ IH|p d q q1 r q2 R _ IH|p d q s1 q2 S _ IH]; [reflexivity| | | |].
  - rewrite IH. exact (run_spares w x _ (S1 _ _ _ _) _ _ _ _ R).
  - rewrite IH. exact (run_spares w x _ (S2 _ _ _) _ _ _ _ R).
  - rewrite IH. exact (run_spares w x _ (S3 _ _ _ _) _ _ _ _ R).
  - rewrite IH. cbn [q_s]. apply S. exact N.
Qed.
Lemma answer_objs {U} w req rsp (q q1 : cst U) r : cb_answer w req rsp q = (q1, r) -> ln_objs (q_s q1) = ln_objs (q_s q).
Proof.
  unfold cb_answer. intros H. destruct (is_notification _).
  - destruct (local_announce_pre w (q_tr q) (q_s q) rsp) as (g' & evs & m' & r' & Q & G). rewrite Q in H.
    assert (q1 = mkcst (q_u q) (q_tr q ++ evs) (set_ln_mgr g' (q_s q))) as -> by congruence. reflexivity.
  - destruct (local_send_pre w (q_tr q) (q_s q) rsp (m_from req)) as (g' & evs & m' & r' & Q & G). rewrite Q in H.
    assert (q1 = mkcst (q_u q) (q_tr q ++ evs) (set_ln_mgr g' (q_s q))) as -> by congruence. reflexivity.
Qed.
Lemma L_C98_isolated : forall (U : Type) (w : os) (cb : cbs U) m a q q' r x,
  received_from a m -> x <> m_DEOJ m -> spares cb x ->
  cb_received w cb q m = (q', r) ->
  zget x (ln_objs (q_s q')) = zget x (ln_objs (q_s q)).
Proof.
  intros U w cb m a q q' r x RF N SP H. destruct (received_copy a m RF) as (C & F). pose proof (received_plain_msg a m RF) as PL.
  unfold cb_received in H. rewrite self_never, andb_false_r, C in H. rewrite get_object_int in H.
  destruct (zget (m_DEOJ m) (ln_objs (q_s q))) as [o|]; [|assert (q' = q) as -> by congruence; reflexivity].
  cbn [new_object set_code fst o_code] in H.
  destruct (cb_tell _ _ _ _ _ _) as [q1 [[]|e]] eqn:T; pose proof (tell_did w cb _ _ _ _ _ _ T) as D1;
    [|assert (q' = q1) as -> by congruence; exact (did_spares w cb x _ _ _ _ SP N D1)].
  destruct (cb_object _ _ _ _ _ _) as [q2 r2] eqn:OB; destruct (object_did w cb _ _ _ _ _ _ PL OB) as (D2 & _).
  pose proof (did_spares w cb x _ _ _ _ SP N (did_trans w cb _ _ _ _ _ D1 D2)) as E.
  destruct r2 as [[rsp|]|e]; [|assert (q' = q2) as -> by congruence; exact E|assert (q' = q2) as -> by congruence; exact E].
  rewrite (answer_objs w _ _ _ _ _ H). exact E.
Qed.
Lemma loop_snoc {U} (f : cst U -> prop -> cst U * res (prop * bool)) mp l : forall q q1 ps n, cb_loop f q (l ++ [mp]) = (q1, Ok (ps, n)) ->
  exists q0 ps0 n0 rp acc, cb_loop f q l = (q0, Ok (ps0, n0)) /\ f q0 mp = (q1, Ok (rp, acc)).
Proof.
  induction l as [|x l IH]; intros q q1 ps n H; cbn [app cb_loop] in H.
  - destruct (f q mp) as [q0 [[rp acc]|e]] eqn:E; [|discriminate]. exists q, [], 0%Z, rp, acc. split; [reflexivity|]. congruence.
  - destruct (f q x) as [q0 [[rp acc]|e]] eqn:E; [|discriminate]. destruct (cb_loop f q0 (l ++ [mp])) as [q2 [[rps k]|e]] eqn:L; [|discriminate].
    destruct (IH _ _ _ _ L) as (qa & ps0 & n0 & rp' & acc' & L0 & F). exists qa. cbn [cb_loop]. rewrite E, L0. eexists _, _, _, _. split; [reflexivity|]. assert (q2 = q1) as <- by congruence. exact F.
Qed.
Lemma L_C98_written : forall (U : Type) (w : os) (cb : cbs U) m a q q' o h l c d,
  received_from a m -> m_ESV m = 0x60%Z \/ m_ESV m = 0x61%Z -> m_props m = l ++ [mkprop c d] ->
  zget (m_DEOJ m) (ln_objs (q_s q)) = Some o -> o_handler o = HUser h -> get_property c o <> None -> accepts w cb ->
  cb_received w cb q m = (q', Ok tt) ->
  mem_at (q_s q') (m_DEOJ m) c = Some d.
Proof.
  intros U w cb m a q q' o h l c d RF ES PR O HU GP AC H. destruct (received_copy a m RF) as (C & F). pose proof (received_plain_msg a m RF) as PL.
  unfold cb_received in H. rewrite self_never, andb_false_r, C in H. rewrite get_object_int, O in H.
  cbn [new_object set_code fst o_code] in H.
  destruct (cb_tell _ _ _ _ _ _) as [q1 [[]|e]] eqn:T; [|discriminate]. pose proof (tell_did w cb _ _ _ _ _ _ T) as D1.
  destruct (cb_object _ _ _ _ _ _) as [q2 r2] eqn:OB.
  assert (X : (exists x, r2 = Ok x) -> mem_at (q_s q2) (m_DEOJ m) c = Some d).
  { intros (x & ->). unfold cb_object in OB. rewrite HU in OB.
    assert (is_request (m_ESV m) = true /\ is_write_read_request (m_ESV m) = false /\ cb_do_plain w cb (m_DEOJ m) (m_ESV m) = cb_do_write w cb (m_DEOJ m)) as (E1 & E2 & E3).
    { destruct ES as [-> | ->]; auto. }
    rewrite E1, E2, E3, PR in OB. cbn [negb] in OB. cbv zeta in OB.
    destruct (cb_loop _ _ _) as [qa [[ps n]|e]] eqn:L; [|discriminate].
    assert (q2 = qa) as -> by (destruct (response_esv _ _); congruence).
    destruct (loop_snoc _ _ _ _ _ _ _ L) as (q0 & ps0 & n0 & rp & acc & L0 & FX).
    destruct (loop_did w cb false (m_DEOJ m) m _ (write_step w cb _ _) _ _ _ _ L0) as (D2 & _).
    destruct (did_keeps w cb _ _ _ _ (did_trans w cb _ _ _ _ _ D1 D2)) as ((_ & _ & _ & _ & _ & K) & _).
    specialize (K (m_DEOJ m)). rewrite O in K. unfold cb_do_write in FX. destruct (zget (m_DEOJ m) (ln_objs (q_s q0))) as [o0|] eqn:O0; [|contradiction].
    destruct K as (KH & _ & KP). specialize (KP c). cbn [p_code p_data] in FX.
    unfold get_property in GP, FX. destruct (zget c (o_props o)) as [p|]; [|congruence]. destruct (zget c (o_props o0)) as [p0|] eqn:P0; [|contradiction].
    unfold ask_write in FX. rewrite KH, HU in FX. specialize (AC (q_u q0) (m_DEOJ m) p0 d (q_tr q0) (q_s q0)).
    destruct (run_prog w _ _ _) as [qb rb] eqn:R. cbn [snd] in AC. subst rb.
    assert (qa = mkcst (q_u qb) (q_tr qb) (put_data (m_DEOJ m) c d (q_s qb))) as -> by congruence. cbn [q_s].
    rewrite mem_put_data, !Z.eqb_refl. destruct (run_keeps w _ _ _ _ _ R) as ((_ & _ & _ & _ & KM & _) & _). rewrite KM.
    unfold mem_at. rewrite O0, P0. reflexivity. }
  destruct r2 as [[rsp|]|e]; [|assert (q' = q2) as -> by congruence; apply X; eauto|discriminate].
  unfold mem_at. rewrite (answer_objs w _ _ _ _ _ H). apply X. eauto.
Qed.
(** ** Handlers that refresh what is read *)
Lemma answer_out {U} w m rsp a (q q' : cst U) : m_from m = Some a -> is_notification (m_ESV rsp) = false -> ln_ctl (q_s q) = None -> m_TID rsp <> 0%Z ->
  cb_answer w m rsp q = (q', Ok tt) ->
  exists snds, q_tr q' = q_tr q ++ map ev_of snds /\ tries (wire rsp) a (open_ifs (q_s q)) snds /\ ln_objs (q_s q') = ln_objs (q_s q).
Proof.
  intros F N C T H. unfold cb_answer in H. rewrite N, F in H.
  destruct (local_send_ok w (q_tr q) (q_s q) rsp a) as (g' & t & S & G & H1 & H2).
  assert (t = m_TID rsp) as -> by (unfold stamped in S; destruct (Z.eqb_spec (m_TID rsp) 0); [contradiction|tauto]).
  assert (SR : set_TID (m_TID rsp) (set_SEOJ (source (q_s q) rsp) rsp) = rsp) by (unfold source; rewrite C; destruct rsp; reflexivity).
  destruct (encodable_dec rsp) as [E|E].
  - destruct (H1 E) as (snds & m' & r & Q & (TR & _) & _). rewrite Q in H. exists snds.
    assert (q' = mkcst (q_u q) (q_tr q ++ map ev_of snds) (set_ln_mgr g' (q_s q))) as -> by congruence.
    split; [reflexivity|]. split; [rewrite SR in TR; exact TR|reflexivity].
  - destruct (H2 E) as (m' & Q). rewrite Q in H. destruct (open_ifs (q_s q)) eqn:NI; [|discriminate]. exists [].
    assert (q' = mkcst (q_u q) (q_tr q) (set_ln_mgr g' (q_s q))) as -> by congruence.
    split; [cbn [q_tr map]; rewrite app_nil_r; reflexivity|]. split; [constructor|reflexivity].
Qed.
Lemma refresh_loop {U} w (cb : cbs U) f key o h : refreshing cb f -> o_handler o = HUser h -> wf_obj o ->
  forall l q s0, zget key (ln_objs s0) = Some o -> keeps s0 (q_s q) -> (forall mp, In mp l -> get_property (p_code mp) o <> None) ->
  exists q1, cb_loop (cb_do_read w cb key) q l = (q1, Ok (map (fun mp => mkprop (p_code mp) (f key (p_code mp))) l, Z.of_nat (length l))) /\
    q_tr q1 = q_tr q /\ keeps s0 (q_s q1).
Proof.
  intros RF HU WF. induction l as [|mp l IH]; intros q s0 O K KN.
  - exists q. split; [reflexivity|auto].
  - pose proof K as K0. destruct K as (_ & _ & _ & _ & _ & K). specialize (K key). rewrite O in K.
    cbn [cb_loop]. unfold cb_do_read at 1. destruct (zget key (ln_objs (q_s q))) as [o1|] eqn:O1; [|contradiction].
    destruct K as (KH & _ & KP). specialize (KP (p_code mp)). pose proof (KN mp (or_introl eq_refl)) as GP. unfold get_property in *.
    destruct (zget (p_code mp) (o_props o)) as [p|] eqn:P; [|congruence]. destruct (zget (p_code mp) (o_props o1)) as [p1|] eqn:P1; [|contradiction].
    assert (PC : op_code p1 = p_code mp) by (rewrite KP; cbn [op_code set_op_data]; exact (WF _ _ P)).
    unfold ask_read. rewrite KH, HU, RF. cbn [run_prog]. rewrite get_object_int, O1. cbn [run_prog]. rewrite PC.
    set (s1 := put_obj key (fst (set_property_data (p_code mp) (f key (p_code mp)) o1)) (q_s q)).
    assert (K1 : keeps s0 s1) by (eapply keeps_trans; [exact K0|apply keeps_put; exact O1]).
    assert (CU : cb_current key (p_code mp) p1 s1 = f key (p_code mp)).
    { unfold cb_current, s1. rewrite zget_put, Z.eqb_refl. unfold current, set_property_data, get_property. rewrite P1. cbn [fst o_props set_o_props].
      rewrite dget_dset by apply zeqb_eq. rewrite Z.eqb_refl. reflexivity. }
    destruct (IH (mkcst (q_u q) (q_tr q) s1) s0 O K1 (fun x Hx => KN x (or_intror Hx))) as (q1 & L & TR & K2).
    cbn [q_s q_u q_tr] in *. rewrite CU, L. exists q1. split; [|auto]. f_equal. f_equal. f_equal. cbn [length]. lia.
Qed.
Lemma L_C98_fresh : forall (U : Type) (w : os) (cb : cbs U) f m a q q' o h,
  received_from a m -> m_ESV m = 0x62%Z -> m_TID m <> 0%Z -> ln_ctl (q_s q) = None ->
  zget (m_DEOJ m) (ln_objs (q_s q)) = Some o -> o_handler o = HUser h -> o_obs o = [] -> wf_obj o ->
  (forall mp, In mp (m_props m) -> get_property (p_code mp) o <> None) -> refreshing cb f ->
  cb_received w cb q m = (q', Ok tt) ->
  exists snds, q_tr q' = q_tr q ++ map (fun x => let '(i, b, d, r) := x in EvSend i b d r) snds /\
    tries (wire (mkmsg (m_TID m) (m_DEOJ m) (m_SEOJ m) 0x72 (map (fun mp => mkprop (p_code mp) (f (m_DEOJ m) (p_code mp))) (m_props m)) [] [] None None))
      a (open_ifs (q_s q)) snds.
Proof.
  intros U w cb f m a q q' o h RF ES TI CT O HU OB WF KN RE H. destruct (received_copy a m RF) as (C & F). pose proof (received_plain_msg a m RF) as PL.
  unfold cb_received in H. rewrite self_never, andb_false_r, C in H. rewrite get_object_int, O in H.
  cbn [new_object set_code fst o_code] in H. rewrite OB in H. cbn [cb_tell] in H.
  destruct (refresh_loop w cb f (m_DEOJ m) o h RE HU WF (m_props m) q (q_s q) O (keeps_refl _) KN) as (q1 & L & TR & K).
  unfold cb_object in H. rewrite HU, ES in H.
  change (is_request 0x62) with true in H. change (is_write_read_request 0x62) with false in H. change (cb_do_plain w cb (m_DEOJ m) 0x62) with (cb_do_read w cb (m_DEOJ m)) in H.
  cbn [negb] in H. cbv zeta in H. rewrite L in H. unfold plain in PL. rewrite ES in PL. change (two_blocks 0x62) with false in PL. destruct PL as (P1 & P2).
  assert (CNT : (Z.of_nat (length (m_props m)) =? OPC m + OPCSet m + OPCGet m)%Z = true).
  { unfold OPC, OPCSet, OPCGet, zlen. rewrite P1, P2. cbn [length]. apply Z.eqb_eq. lia. }
  rewrite CNT in H. change (response_esv 0x62 true) with (Some 0x72%Z) in H.
  destruct K as (KS & KC & _).
  match type of H with ?x = _ => change x with (cb_answer w m (mkmsg (m_TID m) (m_DEOJ m) (m_SEOJ m) 0x72 (map (fun mp => mkprop (p_code mp) (f (m_DEOJ m) (p_code mp))) (m_props m)) [] [] None None) q1) in H end.
  destruct (answer_out w m (mkmsg (m_TID m) (m_DEOJ m) (m_SEOJ m) 0x72 (map (fun mp => mkprop (p_code mp) (f (m_DEOJ m) (p_code mp))) (m_props m)) [] [] None None) a q1 q' F eq_refl (eq_trans KC CT) TI H) as (snds & E1 & E2 & _).
  exists snds. split; [rewrite <- TR; exact E1|]. unfold open_ifs in *. rewrite KS in E2. exact E2.
Qed.

(** ** The announcement of a write handler *)
Lemma received_code a m c d : received_from a m -> m_ESV m = 0x61%Z \/ False -> m_props m = [mkprop c d] -> byte_ok c.
Proof.
  intros (f & ((_ & E) & _) & ->) [ES|[]] PR. cbn [set_from m_ESV m_props] in *. rewrite ES, PR in E. change (two_blocks 0x61) with false in E.
  destruct E as (_ & E). inversion E as [|x l X _]. exact (proj1 X).
Qed.
Lemma L_C98_announce_old_refuted : forall (U : Type) (w : os) (cb : cbs U) m a q q' o h c d old,
  received_from a m -> m_ESV m = 0x61%Z -> m_TID m <> 0%Z -> m_props m = [mkprop c d] -> ln_ctl (q_s q) = None ->
  zget (m_DEOJ m) (ln_objs (q_s q)) = Some o -> o_handler o = HUser h -> o_obs o = [] -> wf_obj o ->
  mem_at (q_s q) (m_DEOJ m) c = Some old -> (length old <= 255)%nat -> announcing cb ->
  cb_received w cb q m = (q', Ok tt) ->
  mem_at (q_s q') (m_DEOJ m) c = Some d /\
  exists t s1 s2, q_tr q' = q_tr q ++ map (fun x => let '(i, b, d, r) := x in EvSend i b d r) (s1 ++ s2) /\
    casts (wire (set_TID t (inf (m_DEOJ m) c old))) MULTICAST (open_ifs (q_s q)) s1 /\
    tries (wire (mkmsg (m_TID m) (m_DEOJ m) (m_SEOJ m) 0x71 [mkprop c []] [] [] None None)) a (open_ifs (q_s q)) s2.
Proof.
  intros U w cb m a q q' o h c d old RF ES TI PR CT O HU OB WF ME LO AN H. destruct (received_copy a m RF) as (C & F). pose proof (received_plain_msg a m RF) as PL.
  assert (BC : byte_ok c) by (exact (received_code a m c d RF (or_introl ES) PR)).
  unfold cb_received in H. rewrite self_never, andb_false_r, C in H. rewrite get_object_int, O in H.
  cbn [new_object set_code fst o_code] in H. rewrite OB in H. cbn [cb_tell] in H.
  unfold cb_object in H. rewrite HU, ES in H.
  change (is_request 0x61) with true in H. change (is_write_read_request 0x61) with false in H. change (cb_do_plain w cb (m_DEOJ m) 0x61) with (cb_do_write w cb (m_DEOJ m)) in H.
  cbn [negb] in H. cbv zeta in H. unfold plain in PL. rewrite ES in PL. change (two_blocks 0x61) with false in PL. destruct PL as (P1 & P2).
  rewrite PR in H. cbn [cb_loop] in H. unfold cb_do_write in H. rewrite O in H. cbn [p_code p_data] in H.
  pose proof ME as ME0. unfold mem_at in ME. rewrite O in ME. unfold get_property in H. destruct (zget c (o_props o)) as [p|] eqn:P; [|discriminate].
  assert (PC : op_code p = c) by exact (WF c p P). assert (OD : op_data p = old) by congruence.
  unfold ask_write in H. rewrite HU, AN in H. cbn [run_prog] in H. rewrite get_object_int, O in H. unfold get_property_data in H. rewrite PC, P, OD in H. cbn [run_prog] in H.
  destruct (local_announce_ok w (q_tr q) (q_s q) (inf (m_DEOJ m) c old)) as (g' & t & _ & G & H1 & _).
  assert (E : encodable (inf (m_DEOJ m) c old)).
  { split; [unfold byte_ok; cbn; lia|]. change (two_blocks (m_ESV (inf (m_DEOJ m) c old))) with false. cbn [inf m_props]. split; [unfold zlen; cbn; lia|].
    constructor; [|constructor]. split; cbn [p_code p_data]; [exact BC|unfold zlen; lia]. }
  destruct (H1 E) as (s1 & m' & r & Q & (CA & _) & _). rewrite Q in H. cbn [run_prog q_u q_tr q_s] in H.
  assert (CNT : (1 + 0 =? OPC m + OPCSet m + OPCGet m)%Z = true).
  { unfold OPC, OPCSet, OPCGet, zlen. rewrite P1, P2, PR. reflexivity. }
  rewrite CNT in H. change (response_esv 0x61 true) with (Some 0x71%Z) in H.
  set (q2 := mkcst (q_u q) (q_tr q ++ map ev_of s1) (put_data (m_DEOJ m) c d (set_ln_mgr g' (q_s q)))) in *.
  match type of H with ?x = _ => change x with (cb_answer w m (mkmsg (m_TID m) (m_DEOJ m) (m_SEOJ m) 0x71 [mkprop c []] [] [] None None) q2) in H end.
  assert (K : keeps (q_s q) (q_s q2)) by (eapply keeps_trans; [apply (keeps_mgr g' (q_s q) G)|apply keeps_put_data]). destruct K as (KS & KC & _).
  destruct (answer_out w m (mkmsg (m_TID m) (m_DEOJ m) (m_SEOJ m) 0x71 [mkprop c []] [] [] None None) a q2 q' F eq_refl (eq_trans KC CT) TI H) as (s2 & E1 & E2 & E3).
  split.
  - unfold mem_at. rewrite E3. fold (mem_at (q_s q2) (m_DEOJ m) c). unfold q2. cbn [q_s]. rewrite mem_put_data, !Z.eqb_refl.
    unfold mem_at. change (ln_objs (set_ln_mgr g' (q_s q))) with (ln_objs (q_s q)). rewrite O, P. reflexivity.
  - exists t, s1, s2. split; [rewrite E1; unfold q2; cbn [q_tr]; rewrite map_app, app_assoc; reflexivity|]. split.
    + unfold source in CA. rewrite CT in CA. exact CA.
    + unfold open_ifs in *. rewrite KS in E2. exact E2.
Qed.

(** ** Callbacks that do nothing *)
Definition not_user (o : obj) : Prop := forall h, o_handler o <> HUser h.
Lemma put_twice key o o1 s : put_obj key o1 (put_obj key o s) = put_obj key o1 s.
Proof. unfold put_obj. cbn [ln_node set_ln_node n_addr n_objs]. rewrite dset_dset_same by apply zeqb_eq. destruct s; reflexivity. Qed.
Lemma put_same_obj key o s : zget key (ln_objs s) = Some o -> put_obj key o s = s.
Proof. intros E. unfold put_obj. unfold ln_objs in E. rewrite (dset_id _ key o _ E) by apply zeqb_eq. destruct s as [[] ]; reflexivity. Qed.

Section Sim.
Context {U : Type} (w : os) (cb : cbs U) (key : Z) (u : U) (tr : trace) (s0 : lnode).
Definition here (o : obj) : cst U := mkcst u tr (put_obj key o s0).
Definition sims (f : cst U -> prop -> cst U * res (prop * bool)) (g : obj -> prop -> obj * res (prop * bool)) : Prop :=
  forall o mp, not_user o -> f (here o) mp = (here (fst (g o mp)), snd (g o mp)) /\ not_user (fst (g o mp)).
Lemma here_obj o : zget key (ln_objs (q_s (here o))) = Some o.
Proof. unfold here. cbn [q_s]. rewrite zget_put, Z.eqb_refl. reflexivity. Qed.
Lemma asked_read o p : not_user o -> ask_read w cb key o p (here o) = (here o, snd (read_requested o p)) /\ fst (read_requested o p) = o.
Proof.
  intros N. unfold ask_read, read_requested. destruct (o_handler o) eqn:E; try (split; reflexivity).
  - destruct p; split; reflexivity.
  - destruct p; split; reflexivity.
  - exfalso. exact (N _ E).
Qed.
Lemma asked_write o p d : not_user o -> ask_write w cb key o p d (here o) = (here o, snd (write_requested o p d)) /\ fst (write_requested o p d) = o.
Proof. intros N. unfold ask_write, write_requested. destruct (o_handler o) eqn:E; try (split; reflexivity). exfalso. exact (N _ E). Qed.
Lemma sim_write : sims (cb_do_write w cb key) do_write.
Proof.
  intros o mp N. unfold cb_do_write, do_write. rewrite here_obj. destruct (get_property (p_code mp) o) as [p|] eqn:G; [|split; [reflexivity|exact N]].
  destruct (asked_write o p (p_data mp) N) as (-> & E). destruct (write_requested o p (p_data mp)) as [o1 [[]|e]]; cbn [fst snd] in *; subst o1; try (split; [reflexivity|exact N]).
  split.
  - unfold put_data, here. cbn [q_u q_tr q_s]. rewrite zget_put, Z.eqb_refl, put_twice. reflexivity.
  - unfold store, set_property_data. rewrite G. exact N.
Qed.
Lemma sim_current o p c : cb_current key c p (q_s (here o)) = current c p o.
Proof. unfold cb_current. rewrite here_obj. reflexivity. Qed.
Lemma sim_read : sims (cb_do_read w cb key) do_read.
Proof.
  intros o mp N. unfold cb_do_read, do_read. rewrite here_obj. destruct (get_property (p_code mp) o) as [p|] eqn:G; [|split; [reflexivity|exact N]].
  destruct (asked_read o (Some p) N) as (-> & E). destruct (read_requested o (Some p)) as [o1 [[]|e]]; cbn [fst snd] in *; subst o1; try (split; [reflexivity|exact N]).
  rewrite sim_current. split; [reflexivity|exact N].
Qed.
Lemma sim_read_wr : sims (cb_do_read_wr w cb key) do_read_wr.
Proof.
  intros o mp N. unfold cb_do_read_wr, do_read_wr. rewrite here_obj. cbv zeta.
  destruct (asked_read o (get_property (p_code mp) o) N) as (-> & E). destruct (read_requested o _) as [o1 [[]|e]]; cbn [fst snd] in *; subst o1; try (split; [reflexivity|exact N]).
  destruct (get_property (p_code mp) o) as [p|]; [rewrite sim_current|]; (split; [reflexivity|exact N]).
Qed.
Lemma sim_skip : sims (@cb_do_skip U) do_skip.
Proof. intros o mp N. split; [reflexivity|exact N]. Qed.
Lemma sim_loop f g : sims f g -> forall l o, not_user o -> cb_loop f (here o) l = (here (fst (do_loop g o l)), snd (do_loop g o l)) /\ not_user (fst (do_loop g o l)).
Proof.
  intros S. induction l as [|mp l IH]; intros o N; cbn [cb_loop do_loop]; [split; [reflexivity|exact N]|].
  destruct (S o mp N) as (-> & N1). destruct (g o mp) as [o1 [[rp acc]|e]]; cbn [fst snd] in *; [|split; [reflexivity|exact N1]].
  destruct (IH o1 N1) as (-> & N2). destruct (do_loop g o1 l) as [o2 [[rps n]|e]]; cbn [fst snd] in *; (split; [reflexivity|exact N2]).
Qed.
Lemma sim_object o req : not_user o ->
  cb_object w cb key o req (here o) = (here (fst (fst (obj_message_received o req))), snd (obj_message_received o req)).
Proof.
  intros N. unfold cb_object, obj_message_received. destruct (negb (is_request (m_ESV req))); [reflexivity|].
  assert (PL : sims (cb_do_plain w cb key (m_ESV req)) (do_plain (m_ESV req))).
  { unfold cb_do_plain, do_plain. destruct (is_read_request _); [exact sim_read|]. destruct (is_write_request _); [exact sim_write|exact sim_skip]. }
  assert (X : forall k : obj * list nat * res (option msg), forall k' : cst U * res (option msg), True) by (intros; exact I). clear X.
  destruct (o_handler o); [reflexivity| | |]; cbv zeta.
  all: destruct (is_write_read_request _);
    [destruct (sim_loop _ _ sim_write (m_sets req) o N) as (-> & N1); destruct (do_loop do_write o (m_sets req)) as [o1 [[ss n]|e]]; cbn [fst snd] in *; [|reflexivity];
     destruct (sim_loop _ _ sim_read_wr (m_gets req) o1 N1) as (-> & N2); destruct (do_loop do_read_wr o1 (m_gets req)) as [o2 [[gs k]|e]]; cbn [fst snd] in *; [|reflexivity];
     destruct (response_esv _ _); reflexivity
    |destruct (sim_loop _ _ PL (m_props req) o N) as (-> & N1); destruct (do_loop _ o (m_props req)) as [o1 [[ss n]|e]]; cbn [fst snd] in *; [|reflexivity];
     destruct (response_esv _ _); reflexivity].
Qed.
End Sim.
Lemma idle_tell {U} w (cb : cbs U) key req l : idle cb -> forall u tr s, cb_tell w cb key req l (mkcst u tr s) = (mkcst u (tr ++ map (fun n => EvObjObs key n req) l) s, Ok tt).
Proof.
  intros I. induction l as [|n l IH]; intros u tr s; cbn [cb_tell map]; [now rewrite app_nil_r|].
  rewrite I. cbn [q_u q_tr q_s run_prog]. rewrite IH. rewrite <- app_assoc. reflexivity.
Qed.
Lemma L_C98_conservative : forall (U : Type) (w : os) (cb : cbs U) u tr s m,
  quiet w -> idle cb -> (forall k o h, zget k (ln_objs s) = Some o -> o_handler o <> HUser h) ->
  cb_received w cb (mkcst u tr s) m = let '(s', tr', r) := local_received w tr s m in (mkcst u tr' s', r).
Proof.
  intros U w cb u tr s m Q I NU. unfold cb_received, local_received. cbn [q_s]. destruct (_ && _)%bool; [reflexivity|].
  destruct (copy_msg m) as [req|e]; [|reflexivity]. rewrite get_object_int. destruct (zget (m_DEOJ req) (ln_objs s)) as [o|] eqn:O; [|reflexivity].
  cbn [new_object set_code fst o_code]. rewrite (idle_tell w cb _ _ _ I), (calls_quiet w _ Q).
  assert (N : not_user o) by (intros h; exact (NU _ _ h O)).
  pose proof (sim_object w cb (m_DEOJ req) u (tr ++ map (fun n => EvObjObs (m_DEOJ req) n req) (o_obs o)) s o req N) as S.
  unfold here in S. rewrite (put_same_obj _ _ _ O) in S. rewrite S.
  destruct (obj_message_received o req) as [[o' told] [[rsp|]|e]]; cbn [fst snd]; try reflexivity.
  unfold cb_answer. cbn [q_tr q_s q_u]. destruct (is_notification _).
  - destruct (local_announce _ _ _ _) as [[[s2 tr2] m2] [b|e]]; reflexivity.
  - destruct (local_send _ _ _ _ _) as [[[s2 tr2] m2] [b|e]]; reflexivity.
Qed.

(** What a message is after it was sent. *)
Definition sends_of (b : list Z) (evs : trace) : Prop := forall i b' d r, In (EvSend i b' d r) evs -> b' = b.
Lemma transmit_back w tr v m a : exists evs r, server_transmit w tr v m a = (tr ++ evs, set_to (Some a) m, r) /\ sends_of (wire m) evs.
Proof.
  destruct (encodable_dec m) as [E|E].
  - rewrite (transmit_ok _ _ _ _ _ E). eexists _, _. split; [reflexivity|]. intros i b d r [Q|[]]. congruence.
  - rewrite (transmit_bad _ _ _ _ _ E). exists [], (Err ValueError). rewrite app_nil_r. split; [reflexivity|]. intros i b d r [].
Qed.
Lemma sends_app b x y : sends_of b x -> sends_of b y -> sends_of b (x ++ y).
Proof. intros X Y i b' d r I. apply in_app_or in I. destruct I; eauto. Qed.
Lemma sends_nil b : sends_of b [].
Proof. intros i b' d r []. Qed.
Definition readdressed (m m' : msg) : Prop := exists x, m' = set_to x m.
Lemma readdressed_refl m : readdressed m m.
Proof. exists (m_to m). destruct m; reflexivity. Qed.
Lemma readdressed_step x m m' : readdressed (set_to x m) m' -> readdressed m m'.
Proof. intros (y & ->). exists y. reflexivity. Qed.
Lemma announce_loop_back w l : forall tr m, exists evs m' r, announce_loop w tr l m = (tr ++ evs, m', r) /\ readdressed m m' /\ sends_of (wire m) evs.
Proof.
  induction l as [|v l IH]; intros tr m; cbn [announce_loop].
  - exists [], m, (Ok tt). rewrite app_nil_r. split; [reflexivity|]. split; [apply readdressed_refl|apply sends_nil].
  - destruct (s_uni v); [|exact (IH tr m)]. unfold server_announce. destruct (negb (s_open v)); [exact (IH tr m)|].
    destruct (transmit_back w tr v m MULTICAST) as (evs & r & -> & F). destruct r as [b|e].
    + destruct (IH (tr ++ evs) (set_to (Some MULTICAST) m)) as (evs' & m' & r & -> & A & B). rewrite wire_to in B.
      exists (evs ++ evs'), m', r. rewrite app_assoc. split; [reflexivity|]. split; [exact (readdressed_step _ _ _ A)|exact (sends_app _ _ _ F B)].
    + exists evs, (set_to (Some MULTICAST) m), (Err e). split; [reflexivity|]. split; [eexists; reflexivity|exact F].
Qed.
Lemma send_loop_back w l a : forall tr m, exists evs m' r, send_loop w tr l m a = (tr ++ evs, m', r) /\ readdressed m m' /\ sends_of (wire m) evs.
Proof.
  induction l as [|v l IH]; intros tr m; cbn [send_loop].
  - exists [], m, (Ok false). rewrite app_nil_r. split; [reflexivity|]. split; [apply readdressed_refl|apply sends_nil].
  - destruct (s_uni v); [|exact (IH tr m)]. destruct a as [a|]; cbn [server_send]; [|exact (IH tr m)]. destruct (negb (s_open v)); [exact (IH tr m)|].
    destruct (transmit_back w tr v m a) as (evs & r & -> & F). destruct r as [[]|e].
    + exists evs, (set_to (Some a) m), (Ok true). split; [reflexivity|]. split; [eexists; reflexivity|exact F].
    + destruct (IH (tr ++ evs) (set_to (Some a) m)) as (evs' & m' & r & -> & A & B). rewrite wire_to in B.
      exists (evs ++ evs'), m', r. rewrite app_assoc. split; [reflexivity|]. split; [exact (readdressed_step _ _ _ A)|exact (sends_app _ _ _ F B)].
    + exists evs, (set_to (Some a) m), (Err e). split; [reflexivity|]. split; [eexists; reflexivity|exact F].
Qed.
Lemma handed_of m0 m s g' t m' :
  m0 = match ln_ctl s with None => m | Some _ => set_SEOJ NODE_PROFILE_CODE m end -> stamped (ln_mgr s) m0 g' t -> readdressed (set_TID t m0) m' ->
  handed_back m m' (set_ln_mgr g' s) /\ wire m' = wire (set_TID t m0).
Proof.
  intros E S (x & ->). split; [|apply wire_to].
  assert (T : m_TID m0 = m_TID m) by (subst m0; destruct (ln_ctl s), m; reflexivity).
  assert (ST : t = if (m_TID m =? 0)%Z then g_tid g' else m_TID m).
  { unfold stamped in S. rewrite T in S. destruct (m_TID m =? 0)%Z; [|exact (proj2 S)]. unfold next_TID in S. destruct (0xFFFF <? g_tid (ln_mgr s) + 1)%Z; injection S as -> ->; reflexivity. }
  unfold handed_back. cbn [m_TID set_to set_TID]. split; [exact ST|].
  split; [intros N; change (ln_ctl s = None) in N; subst m0; rewrite N; reflexivity|].
  subst m0. destruct (ln_ctl s); do 5 (split; [reflexivity|]); reflexivity.
Qed.
Lemma L_C98_reuse : forall (U A : Type) (w : os) (k : msg -> res bool -> prog U A) tr s m a,
  (exists evs s1 m1 r, run_prog w (PAnnounce m k) tr s = run_prog w (k m1 r) (tr ++ evs) s1 /\
     handed_back m m1 s1 /\ forall x, In x (sent evs) -> snd (fst (fst x)) = wire m1) /\
  (exists evs s1 m1 r, run_prog w (PSend m a k) tr s = run_prog w (k m1 r) (tr ++ evs) s1 /\
     handed_back m m1 s1 /\ forall x, In x (sent evs) -> snd (fst (fst x)) = wire m1).
Proof.
  intros U A w k tr s m a. remember (match ln_ctl s with None => m | Some _ => set_SEOJ NODE_PROFILE_CODE m end) as m0 eqn:E0.
  assert (SE : forall evs b, sends_of b evs -> forall x, In x (sent evs) -> snd (fst (fst x)) = b).
  { intros evs b F [[[i b'] d] r] I. cbn. unfold sent in I. apply in_flat_map in I. destruct I as (ev & I & J). destruct ev; cbn in J; try contradiction. destruct J as [J|[]].
    injection J as -> -> -> ->. exact (F _ _ _ _ I). }
  destruct (assign_stamped (ln_mgr s) m0) as (g' & t & As & S & G). split; cbn [run_prog].
  - unfold local_announce, mgr_announce. rewrite <- E0, As.
    destruct (announce_loop_back w (g_servers g') tr (set_TID t m0)) as (evs & m' & r & -> & R & F).
    destruct (handed_of _ _ _ _ _ _ E0 S R) as (H & W).
    destruct r as [b|e]; [exists evs, (set_ln_mgr g' s), m', (Ok true)|exists evs, (set_ln_mgr g' s), m', (Err e)];
      (split; [reflexivity|]; split; [exact H|]; rewrite W; exact (SE _ _ F)).
  - unfold local_send, mgr_send. rewrite <- E0, As.
    destruct (send_loop_back w (g_servers g') a tr (set_TID t m0)) as (evs & m' & r & -> & R & F).
    destruct (handed_of _ _ _ _ _ _ E0 S R) as (H & W).
    exists evs, (set_ln_mgr g' s), m', r. split; [reflexivity|]. split; [exact H|]. rewrite W. exact (SE _ _ F).
Qed.
