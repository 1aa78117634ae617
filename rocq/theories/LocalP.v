(** Lemmas for C30-C33, C37, C59, C62. *)
From Verif Require Import PyBase BytesM EsvM MsgM PropM ObjM DbData DbM NodeM LocalM CtrlM
  SpecWire SpecObj SpecMap SpecReq SpecNode SpecProf SpecLocal DictP BytesP WireP CodecP ObjP ReqP NodeP ProfP.
Require Import ZifyBool.

Definition ev_of (x : send) : event := let '(i, b, d, r) := x in EvSend i b d r.
Lemma sent_app a b : sent (a ++ b) = sent a ++ sent b.
Proof. apply flat_map_app. Qed.
Lemma sent_evs l : sent (map ev_of l) = l.
Proof. induction l as [|[[[i b] d] r] l IH]; [reflexivity|]. cbn [map sent flat_map ev_of app]. f_equal. exact IH. Qed.
Lemma sent_none evs : Forall (fun e => match e with EvSend _ _ _ _ => False | _ => True end) evs -> sent evs = [].
Proof. induction 1 as [|e evs H _ IH]; [reflexivity|]. cbn [sent flat_map]. fold (sent evs). rewrite IH. destruct e; try reflexivity. contradiction. Qed.
Lemma obj_events_sent c m evs : Forall (obj_event c m) evs -> sent evs = [].
Proof. intros H. apply sent_none. eapply Forall_impl; [|exact H]. intros e (n & ->). exact I. Qed.
Lemma listener_events_sent evs : Forall listener_event evs -> sent evs = [].
Proof. intros H. apply sent_none. eapply Forall_impl; [|exact H]. intros [] K; try exact I; contradiction. Qed.

(** ** Sending *)
Definition ifs_of (l : list server) : list string := map s_if (filter (fun v => s_uni v && s_open v) l).

(** [outcome l r]: r is the exception that one of the attempts raised, if any. *)
Definition raised (l : list send) (e : exn) : Prop := exists x, In x l /\ snd x = Err e.

Lemma wire_to a m : wire (set_to a m) = wire m.
Proof. reflexivity. Qed.

Lemma transmit_ok w tr v m a : encodable m ->
  server_transmit w tr v m a =
  (tr ++ [EvSend (s_if v) (wire m) a (os_sendto w tr (s_if v) (wire m) a)], set_to (Some a) m,
   match os_sendto w tr (s_if v) (wire m) a with Ok n => Ok (negb (n <=? 0)) | Err e => Err e end).
Proof.
  intros E. unfold server_transmit, to_string. rewrite (to_bytes_ok (set_to (Some a) m)) by exact E. cbn [bindr].
  rewrite wire_to. destruct (os_sendto _ _ _ _ _); reflexivity.
Qed.
Lemma transmit_bad w tr v m a : ~ encodable m -> server_transmit w tr v m a = (tr, set_to (Some a) m, Err ValueError).
Proof.
  intros E. unfold server_transmit, to_string. rewrite (to_bytes_err (set_to (Some a) m)) by exact E. reflexivity.
Qed.

(** The results come from the operating system. *)
Definition from_os (w : os) (x : send) : Prop := let '(i, b, d, r) := x in exists t, r = os_sendto w t i b d.

Lemma send_loop_ok w a l : forall tr m, encodable m ->
  exists snds tr' m' r, send_loop w tr l m (Some a) = (tr', m', r) /\ tr' = tr ++ map ev_of snds /\
    (tries (wire m) a (ifs_of l) snds /\ Forall (from_os w) snds) /\
    match r with
    | Err e => raised snds e
    | Ok b => (forall e, ~ raised snds e) /\ (b = true <-> exists x, In x snds /\ delivered x = true)
    end.
Proof.
  induction l as [|v l IH]; intros tr m E.
  - exists [], tr, m, (Ok false). split; [reflexivity|]. split; [now rewrite app_nil_r|]. split; [split; constructor|].
    split; [intros e (x & [] & _)|]. split; [discriminate|intros (x & [] & _)].
  - cbn [send_loop]. unfold ifs_of. cbn [filter]. destruct (s_uni v); cbn [andb]; [|apply IH; exact E].
    unfold server_send. destruct (s_open v); cbn [negb]; [|apply IH; exact E].
    rewrite transmit_ok by exact E. cbn [map]. fold (ifs_of l).
    set (o := os_sendto w tr (s_if v) (wire m) a). destruct o as [n|e] eqn:Eo.
    + destruct (n <=? 0) eqn:N; cbn [negb].
      * destruct (IH (tr ++ [EvSend (s_if v) (wire m) a (Ok n)]) (set_to (Some a) m) E) as (snds & tr' & m' & r & Q & -> & T & R).
        exists ((s_if v, wire m, a, Ok n) :: snds), (tr ++ map ev_of ((s_if v, wire m, a, Ok n) :: snds)), m', r.
        split; [rewrite Q; f_equal; f_equal; rewrite <- app_assoc; reflexivity|].
        split; [reflexivity|]. destruct T as [T TF]. split; [split; [apply tries_next; [lia|exact T]|constructor; [exists tr; symmetry; exact Eo|exact TF]]|].
        destruct r as [b|e].
        -- destruct R as (R1 & R2). split; [intros e (x & [<-|Hx] & Ex); [discriminate|apply (R1 e); exists x; auto]|].
           rewrite R2. split; intros (x & Hx & D); [exists x; split; [now right|assumption]|].
           destruct Hx as [<-|Hx]; [unfold delivered in D; cbn [snd] in D; lia|exists x; auto].
        -- destruct R as (x & Hx & Ex). exists x. split; [now right|assumption].
      * exists [(s_if v, wire m, a, Ok n)]. eexists _, _, _. split; [reflexivity|]. split; [reflexivity|].
        split; [split; [apply tries_done; lia|constructor; [exists tr; symmetry; exact Eo|constructor]]|]. split; [intros e (x & [<-|[]] & Ex); discriminate|].
        split; [intros _|reflexivity]. eexists. split; [now left|]. unfold delivered. cbn [snd]. lia.
    + exists [(s_if v, wire m, a, Err e)]. eexists _, _, _. split; [reflexivity|]. split; [reflexivity|].
      split; [split; [apply tries_raise|constructor; [exists tr; symmetry; exact Eo|constructor]]|]. eexists. split; [now left|reflexivity].
Qed.

Lemma send_loop_bad w a l : forall tr m, ~ encodable m ->
  exists m', send_loop w tr l m (Some a) = (tr, m', match ifs_of l with [] => Ok false | _ => Err ValueError end).
Proof.
  induction l as [|v l IH]; intros tr m E; [exists m; reflexivity|].
  cbn [send_loop]. unfold ifs_of. cbn [filter]. destruct (s_uni v); cbn [andb]; [|apply IH; exact E].
  unfold server_send. destruct (s_open v); cbn [negb]; [|apply IH; exact E].
  rewrite transmit_bad by exact E. cbn [map]. eexists. reflexivity.
Qed.

Lemma announce_loop_ok w l : forall tr m, encodable m ->
  exists snds tr' m' r, announce_loop w tr l m = (tr', m', r) /\ tr' = tr ++ map ev_of snds /\
    (casts (wire m) MULTICAST (ifs_of l) snds /\ Forall (from_os w) snds) /\
    match r with Err e => raised snds e | Ok _ => forall e, ~ raised snds e end.
Proof.
  induction l as [|v l IH]; intros tr m E.
  - exists [], tr, m, (Ok tt). split; [reflexivity|]. split; [now rewrite app_nil_r|]. split; [split; constructor|].
    intros e (x & [] & _).
  - cbn [announce_loop]. unfold ifs_of. cbn [filter]. destruct (s_uni v); cbn [andb]; [|apply IH; exact E].
    unfold server_announce. destruct (s_open v); cbn [negb]; [|apply IH; exact E].
    rewrite transmit_ok by exact E. cbn [map]. fold (ifs_of l).
    set (o := os_sendto w tr (s_if v) (wire m) MULTICAST). destruct o as [n|e] eqn:Eo.
    + destruct (IH (tr ++ [EvSend (s_if v) (wire m) MULTICAST (Ok n)]) (set_to (Some MULTICAST) m) E) as (snds & tr' & m' & r & Q & -> & T & R).
      exists ((s_if v, wire m, MULTICAST, Ok n) :: snds), (tr ++ map ev_of ((s_if v, wire m, MULTICAST, Ok n) :: snds)), m', r.
      split; [rewrite Q; f_equal; f_equal; rewrite <- app_assoc; reflexivity|].
      split; [reflexivity|]. destruct T as [T TF]. split; [split; [apply casts_next; exact T|constructor; [exists tr; symmetry; exact Eo|exact TF]]|].
      destruct r as [b|e].
      * intros e (x & [<-|Hx] & Ex); [discriminate|apply (R e); exists x; auto].
      * destruct R as (x & Hx & Ex). exists x. split; [now right|assumption].
    + exists [(s_if v, wire m, MULTICAST, Err e)]. eexists _, _, _. split; [reflexivity|]. split; [reflexivity|].
      split; [split; [apply casts_raise|constructor; [exists tr; symmetry; exact Eo|constructor]]|]. eexists. split; [now left|reflexivity].
Qed.
Lemma announce_loop_bad w l : forall tr m, ~ encodable m ->
  exists m', announce_loop w tr l m = (tr, m', match ifs_of l with [] => Ok tt | _ => Err ValueError end).
Proof.
  induction l as [|v l IH]; intros tr m E; [exists m; reflexivity|].
  cbn [announce_loop]. unfold ifs_of. cbn [filter]. destruct (s_uni v); cbn [andb]; [|apply IH; exact E].
  unfold server_announce. destruct (s_open v); cbn [negb]; [|apply IH; exact E].
  rewrite transmit_bad by exact E. cbn [map]. eexists. reflexivity.
Qed.

(** The TID a manager puts on a message, and the manager afterwards. *)
Definition stamped (g : manager) (m : msg) (g' : manager) (t : Z) : Prop :=
  if m_TID m =? 0 then (g', t) = next_TID g else g' = g /\ t = m_TID m.
Lemma assign_stamped g m : exists g' t, assign_TID g m = (g', set_TID t m) /\ stamped g m g' t /\ g_servers g' = g_servers g.
Proof.
  unfold assign_TID, stamped. destruct (m_TID m =? 0).
  - destruct (next_TID g) as [g' t] eqn:E. exists g', t. repeat split. unfold next_TID in E. injection E as <- _. reflexivity.
  - exists g, (m_TID m). repeat split. destruct m; reflexivity.
Qed.
Definition source (s : lnode) (m : msg) : Z := match ln_ctl s with None => m_SEOJ m | Some _ => NP end.

Definition answer_result (snds : list send) (r : res unit) : Prop :=
  match r with Err e => raised snds e | Ok _ => forall e, ~ raised snds e end.

Lemma local_send_ok w tr s m a : exists g' t,
  stamped (ln_mgr s) m g' t /\ g_servers g' = g_servers (ln_mgr s) /\
  (encodable m -> exists snds m' r, local_send w tr s m (Some a) = (set_ln_mgr g' s, tr ++ map ev_of snds, m', r) /\
     (tries (wire (set_TID t (set_SEOJ (source s m) m))) a (open_ifs s) snds /\ Forall (from_os w) snds) /\
     match r with Err e => raised snds e
     | Ok b => (forall e, ~ raised snds e) /\ (b = true <-> exists x, In x snds /\ delivered x = true) end) /\
  (~ encodable m -> exists m', local_send w tr s m (Some a) =
     (set_ln_mgr g' s, tr, m', match open_ifs s with [] => Ok false | _ => Err ValueError end)).
Proof.
  set (m0 := set_SEOJ (source s m) m).
  assert (E0 : match ln_ctl s with None => m | Some _ => set_SEOJ NODE_PROFILE_CODE m end = m0).
  { unfold m0, source. destruct (ln_ctl s); [reflexivity|]. destruct m; reflexivity. }
  destruct (assign_stamped (ln_mgr s) m0) as (g' & t & A & S & G). exists g', t.
  split; [exact S|]. split; [exact G|]. unfold local_send, mgr_send. rewrite E0, A. unfold open_ifs. rewrite <- G. split.
  - intros E. destruct (send_loop_ok w a (g_servers g') tr (set_TID t m0) E) as (snds & tr' & m' & r & Q & -> & T & R).
    rewrite Q. exists snds, m', r. split; [reflexivity|]. split; [exact T|exact R].
  - intros E. destruct (send_loop_bad w a (g_servers g') tr (set_TID t m0) E) as (m' & Q). rewrite Q. exists m'. reflexivity.
Qed.

Lemma local_announce_ok w tr s m : exists g' t,
  stamped (ln_mgr s) m g' t /\ g_servers g' = g_servers (ln_mgr s) /\
  (encodable m -> exists snds m' r, local_announce w tr s m = (set_ln_mgr g' s, tr ++ map ev_of snds, m', r) /\
     (casts (wire (set_TID t (set_SEOJ (source s m) m))) MULTICAST (open_ifs s) snds /\ Forall (from_os w) snds) /\
     match r with Err e => raised snds e | Ok b => (forall e, ~ raised snds e) /\ b = true end) /\
  (~ encodable m -> exists m', local_announce w tr s m =
     (set_ln_mgr g' s, tr, m', match open_ifs s with [] => Ok true | _ => Err ValueError end)).
Proof.
  set (m0 := set_SEOJ (source s m) m).
  assert (E0 : match ln_ctl s with None => m | Some _ => set_SEOJ NODE_PROFILE_CODE m end = m0).
  { unfold m0, source. destruct (ln_ctl s); [reflexivity|]. destruct m; reflexivity. }
  destruct (assign_stamped (ln_mgr s) m0) as (g' & t & A & S & G). exists g', t.
  split; [exact S|]. split; [exact G|]. unfold local_announce, mgr_announce. rewrite E0, A. unfold open_ifs. rewrite <- G. split.
  - intros E. destruct (announce_loop_ok w (g_servers g') tr (set_TID t m0) E) as (snds & tr' & m' & r & Q & -> & T & R).
    rewrite Q. destruct r as [b|e]; [exists snds, m', (Ok true)|exists snds, m', (Err e)];
      (split; [reflexivity|]; split; [exact T|]); [split; [exact R|reflexivity]|exact R].
  - intros E. destruct (announce_loop_bad w (g_servers g') tr (set_TID t m0) E) as (m' & Q). rewrite Q. exists m'.
    unfold ifs_of. destruct (map s_if _); reflexivity.
Qed.

(** ** Receiving *)
Lemma received_copy a m : received_from a m -> copy_msg m = Ok m /\ m_from m = Some a.
Proof.
  intros (f & F & ->). split; [|reflexivity].
  assert (T : m_to f = None) by (destruct F as (_ & _ & <-); reflexivity).
  replace (set_from (Some a) f) with (set_to None (set_from (Some a) f)); [now apply copy_frame|].
  destruct f; cbn in *. now subst.
Qed.

Lemma calls_split w evs : forall tr tr' r, calls w tr evs = (tr', r) ->
  exists done, tr' = tr ++ done /\ (exists rest, evs = done ++ rest) /\ (r = Ok tt -> done = evs) /\
    (quiet w -> r = Ok tt).
Proof.
  induction evs as [|e evs IH]; intros tr tr' r; cbn [calls call].
  - intros [= <- <-]. exists []. rewrite app_nil_r. split; [reflexivity|]. split; [exists []; reflexivity|]. split; auto.
  - destruct (os_user w tr e) as [[]|x] eqn:U.
    + intros H. destruct (IH _ _ _ H) as (done & -> & (rest & ->) & R & Q). exists (e :: done).
      rewrite <- app_assoc. split; [reflexivity|]. split; [exists rest; reflexivity|].
      split; [intros K; f_equal; now apply R|exact Q].
    + intros [= <- <-]. exists [e]. split; [reflexivity|]. split; [exists evs; reflexivity|].
      split; [discriminate|]. intros Q. rewrite Q in U. discriminate.
Qed.

Lemma self_never m s : truthy (is_self_message m s) = false.
Proof. unfold is_self_message. destruct (negb (from_is m s)); reflexivity. Qed.

Definition esv_notification (m : msg) : bool := m_ESV m =? 0x73.
Lemma response_codes esv all e : response_esv esv all = Some e ->
  In e [0x50; 0x71; 0x72; 0x52; 0x7E; 0x5E; 0x73; 0x53; 0x7A].
Proof.
  unfold response_esv. repeat match goal with |- context [if ?c then _ else _] => destruct c end; intros [= <-]; cbn; tauto.
Qed.

Lemma obj_response_esv o req o' told rsp : obj_message_received o req = (o', told, Ok (Some rsp)) ->
  In (m_ESV rsp) [0x50; 0x71; 0x72; 0x52; 0x7E; 0x5E; 0x73; 0x53; 0x7A].
Proof.
  unfold obj_message_received. destruct (negb (is_request (m_ESV req))); [discriminate|].
  destruct (o_handler o); [discriminate| | |];
  (destruct (is_write_read_request (m_ESV req));
   [ destruct (do_loop do_write o (m_sets req)) as [o1 [[ss n]|ex]]; [|discriminate];
     destruct (do_loop do_read_wr o1 (m_gets req)) as [o2 [[gs k]|ex]]; [|discriminate];
     destruct (response_esv (m_ESV req) (n + k =? OPC req + OPCSet req + OPCGet req)) as [e|] eqn:R; [|discriminate];
     intros [= _ _ <-]; exact (response_codes _ _ _ R)
   | destruct (do_loop (do_plain (m_ESV req)) o (m_props req)) as [o1 [[ps n]|ex]]; [|discriminate];
     destruct (response_esv (m_ESV req) (n =? OPC req + OPCSet req + OPCGet req)) as [e|] eqn:R; [|discriminate];
     intros [= _ _ <-]; exact (response_codes _ _ _ R) ]).
Qed.
Lemma response_notification e : In e [0x50; 0x71; 0x72; 0x52; 0x7E; 0x5E; 0x73; 0x53; 0x7A] -> is_notification e = (e =? 0x73).
Proof. cbn [In]. intros H. repeat destruct H as [<-|H]; try reflexivity. contradiction. Qed.

(** What LocalNode.message_received does. *)
Definition local_spec (w : os) (s : lnode) (a : addr) (m : msg) (s' : lnode) (evs : trace) (r : res unit) : Prop :=
  match zget (m_DEOJ m) (ln_objs s) with
  | None => s' = s /\ evs = [] /\ r = Ok tt
  | Some o =>
    exists obsevs snds, evs = obsevs ++ map ev_of snds /\ Forall (obj_event (m_DEOJ m) m) obsevs /\
    ((snds = [] /\ s' = s /\ ~ quiet w /\ exists e, r = Err e) \/
     (let '(o', _, x) := obj_message_received o m in
      obsevs = map (fun n => EvObjObs (m_DEOJ m) n m) (o_obs o) /\
      exists g', s' = set_ln_mgr g' (put_obj (m_DEOJ m) o' s) /\ g_servers g' = g_servers (ln_mgr s) /\
      match x with
      | Err e => snds = [] /\ g' = ln_mgr s /\ r = Err e
      | Ok None => snds = [] /\ g' = ln_mgr s /\ r = Ok tt
      | Ok (Some rsp) => exists t, stamped (ln_mgr s) m g' t /\
          ((encodable rsp /\
            (let b := wire (set_TID t (set_SEOJ (source s rsp) rsp)) in
             if m_ESV rsp =? 0x73 then casts b MULTICAST (open_ifs s) snds else tries b a (open_ifs s) snds) /\
            Forall (from_os w) snds /\ answer_result snds r) \/
           (~ encodable rsp /\ snds = [] /\ r = match open_ifs s with [] => Ok tt | _ => Err ValueError end))
      end))
  end.

Lemma local_received_spec w tr s a m : received_from a m ->
  exists s' evs r, local_received w tr s m = (s', tr ++ evs, r) /\ local_spec w s a m s' evs r.
Proof.
  intros Hm. destruct (received_copy a m Hm) as (C & F). unfold local_received, local_spec.
  rewrite self_never, andb_false_r, C. unfold get_object. cbn [new_object set_code fst o_code]. fold (ln_objs s).
  destruct (zget (m_DEOJ m) (ln_objs s)) as [o|].
  2:{ exists s, [], (Ok tt). rewrite app_nil_r. repeat split. }
  destruct (calls w tr _) as [tr1 r1] eqn:K. destruct (calls_split _ _ _ _ _ K) as (done & -> & (rest & ED) & RO & RQ).
  assert (FD : Forall (obj_event (m_DEOJ m) m) done).
  { apply Forall_forall. intros e He. assert (In e (done ++ rest)) as I by (apply in_app_iff; now left).
    rewrite <- ED in I. apply in_map_iff in I. destruct I as (n & <- & _). exists n. reflexivity. }
  destruct r1 as [[]|e].
  2:{ exists s, done, (Err e). split; [reflexivity|]. exists done, []. cbn [map]. rewrite app_nil_r. split; [reflexivity|]. split; [exact FD|].
      left. repeat split; eauto. intros Q. specialize (RQ Q). discriminate. }
  specialize (RO eq_refl).
  destruct (obj_message_received o m) as [[o' told] x] eqn:O. destruct x as [[rsp|]|e].
  - pose proof (obj_response_esv _ _ _ _ _ O) as RE. pose proof (response_notification _ RE) as RN. rewrite RN.
    destruct (L_C18_correlation _ _ _ _ _ O) as (T1 & T2 & T3).
    set (s1 := put_obj (m_DEOJ m) o' s).
    assert (ST : forall g' t, stamped (ln_mgr s1) rsp g' t -> stamped (ln_mgr s) m g' t).
    { intros g' t. unfold stamped. rewrite T1. auto. }
    destruct (m_ESV rsp =? 0x73).
    + destruct (local_announce_ok w (tr ++ done) s1 rsp) as (g' & t & S & G & H1 & H2).
      destruct (encodable_dec rsp) as [E|E].
      * destruct (H1 E) as (snds & m' & r & -> & T & R).
        destruct r as [b|e]; [exists (set_ln_mgr g' s1), (done ++ map ev_of snds), (Ok tt)|exists (set_ln_mgr g' s1), (done ++ map ev_of snds), (Err e)];
        (split; [now rewrite app_assoc|]; exists done, snds; split; [reflexivity|]; split; [exact FD|]; right;
         split; [exact RO|]; exists g'; split; [reflexivity|]; split; [exact G|]; exists t; split; [now apply ST|]; left;
         split; [exact E|]; split; [exact (proj1 T)|]; split; [exact (proj2 T)|]); [exact (proj1 R)|exact R].
      * destruct (H2 E) as (m' & ->).
        exists (set_ln_mgr g' s1), done, (match open_ifs s with [] => Ok tt | _ => Err ValueError end).
        change (open_ifs s1) with (open_ifs s).
        split; [destruct (open_ifs s); reflexivity|]. exists done, []. cbn [map]. rewrite app_nil_r. split; [reflexivity|]. split; [exact FD|]. right.
        split; [exact RO|]. exists g'. split; [reflexivity|]. split; [exact G|]. exists t. split; [now apply ST|]. right. auto.
    + destruct (local_send_ok w (tr ++ done) s1 rsp a) as (g' & t & S & G & H1 & H2). rewrite F.
      destruct (encodable_dec rsp) as [E|E].
      * destruct (H1 E) as (snds & m' & r & -> & T & R).
        destruct r as [b|e]; [exists (set_ln_mgr g' s1), (done ++ map ev_of snds), (Ok tt)|exists (set_ln_mgr g' s1), (done ++ map ev_of snds), (Err e)];
        (split; [now rewrite app_assoc|]; exists done, snds; split; [reflexivity|]; split; [exact FD|]; right;
         split; [exact RO|]; exists g'; split; [reflexivity|]; split; [exact G|]; exists t; split; [now apply ST|]; left;
         split; [exact E|]; split; [exact (proj1 T)|]; split; [exact (proj2 T)|]); [exact (proj1 R)|exact R].
      * destruct (H2 E) as (m' & ->).
        exists (set_ln_mgr g' s1), done, (match open_ifs s with [] => Ok tt | _ => Err ValueError end).
        change (open_ifs s1) with (open_ifs s).
        split; [destruct (open_ifs s); reflexivity|]. exists done, []. cbn [map]. rewrite app_nil_r. split; [reflexivity|]. split; [exact FD|]. right.
        split; [exact RO|]. exists g'. split; [reflexivity|]. split; [exact G|]. exists t. split; [now apply ST|]. right. auto.
  - exists (put_obj (m_DEOJ m) o' s), done, (Ok tt). split; [reflexivity|]. exists done, []. cbn [map]. rewrite app_nil_r. split; [reflexivity|].
    split; [exact FD|]. right. split; [exact RO|]. exists (ln_mgr s). split; [destruct s; reflexivity|]. repeat split.
  - exists (put_obj (m_DEOJ m) o' s), done, (Err e). split; [reflexivity|]. exists done, []. cbn [map]. rewrite app_nil_r. split; [reflexivity|].
    split; [exact FD|]. right. split; [exact RO|]. exists (ln_mgr s). split; [destruct s; reflexivity|]. repeat split.
Qed.

(** ** What a controller does with responses only tells listeners *)
Lemma calls_listeners w tr evs tr' r : Forall listener_event evs -> calls w tr evs = (tr', r) ->
  exists evs', tr' = tr ++ evs' /\ Forall listener_event evs'.
Proof.
  intros F H. destruct (calls_split _ _ _ _ _ H) as (done & -> & (rest & ->) & _). exists done.
  split; [reflexivity|]. apply Forall_app in F. tauto.
Qed.
Lemma Forall_mapl {A B} (P : B -> Prop) (f : A -> B) l : (forall x, P (f x)) -> Forall P (map f l).
Proof. intros H. induction l; constructor; auto. Qed.

Ltac lis H := let e := fresh "ev" in let Q := fresh "Q" in let F := fresh "F" in
  unfold notify_property_updated, notify_object_updated, notify_node_updated, notify_node_added in H;
  apply calls_listeners in H; [destruct H as (e & -> & F)|apply Forall_mapl; intros; exact I].

Section CtlEvents.
Context {PS : PySet}.
Lemma update_loop_events w c key l : forall tr n o u n' o' tr' r,
  update_loop w tr c key n o l u = (n', o', tr', r) -> exists evs, tr' = tr ++ evs /\ Forall listener_event evs.
Proof.
  induction l as [|mp l IH]; intros tr n o u n' o' tr' r; cbn [update_loop].
  - intros [= <- <- <- <-]. exists []. rewrite app_nil_r. auto.
  - destruct (get_property _ _); [|apply IH]. destruct (bytes_eqb _ _); [apply IH|]. cbv zeta.
    destruct (notify_property_updated _ _ _ _ _ _) as [tr1 [[]|e]] eqn:N; lis N.
    + intros H. apply IH in H. destruct H as (evs & -> & F'). exists (ev ++ evs). rewrite app_assoc. split; [reflexivity|]. now apply Forall_app.
    + intros [= <- <- <- <-]. eauto.
Qed.
Lemma update_properties_events w tr c m c' tr' r :
  update_properties w tr c m = (c', tr', r) -> exists evs, tr' = tr ++ evs /\ Forall listener_event evs.
Proof.
  unfold update_properties. destruct (get_node _ _ _ _) as [[n|]|e].
  2,3: intros [= <- <- <-]; exists []; rewrite app_nil_r; auto.
  destruct (get_object _ _) as [o|]. 2: intros [= <- <- <-]; exists []; rewrite app_nil_r; auto.
  destruct (update_loop _ _ _ _ _ _ _ _) as [[[n' o'] tr1] [u|e]] eqn:U; apply update_loop_events in U; destruct U as (evs & -> & F).
  2: intros [= <- <- <-]; eauto.
  destruct u. 2: intros [= <- <- <-]; eauto.
  destruct (notify_object_updated _ _ _ _ _) as [tr2 [[]|e]] eqn:N; lis N.
  - destruct (notify_node_updated _ _ _ _) as [tr3 r3] eqn:N2. lis N2. intros [= <- <- <-].
    exists (evs ++ ev ++ ev0). rewrite !app_assoc. split; [reflexivity|]. rewrite <- app_assoc.
    apply Forall_app; split; [|apply Forall_app]; auto.
  - intros [= <- <- <-]. exists (evs ++ ev). rewrite app_assoc. split; [reflexivity|]. now apply Forall_app.
Qed.
Lemma add_found_node_events w tr c n c' tr' r :
  add_found_node w tr c n = (c', tr', r) -> exists evs, tr' = tr ++ evs /\ Forall listener_event evs.
Proof.
  unfold add_found_node. destruct (sget _ _).
  - destruct (notify_node_updated _ _ _ _) as [tr1 [[]|e]] eqn:N; lis N; intros [= <- <- <-]; eauto.
  - destruct (notify_node_added _ _ _ _) as [tr1 [[]|e]] eqn:N; lis N; intros [= <- <- <-]; eauto.
Qed.
Lemma ctl_response_events w tr c m c' tr' r :
  ctl_response w tr c m = (c', tr', r) -> exists evs, tr' = tr ++ evs /\ Forall listener_event evs.
Proof.
  unfold ctl_response. 
  assert (Z0 : forall t : trace, exists evs, t = t ++ evs /\ Forall listener_event evs) by (intros t; exists []; rewrite app_nil_r; auto).
  destruct (copy_msg m) as [m1|e]. 2: intros [= <- <- <-]; auto.
  destruct (is_node_profile_message m1) as [np|e]. 2: intros [= <- <- <-]; auto.
  set (found := if np then _ else _). intros H.
  assert (K : exists c1 tr1 r1 evs, found = (c1, tr1, r1) /\ tr1 = tr ++ evs /\ Forall listener_event evs).
  { unfold found. destruct np.
    2: exists c, tr, (Ok tt), []; rewrite app_nil_r; auto.
    destruct (new_remote _) as [n [[]|e]]. 2: exists c, tr, (Err e), []; rewrite app_nil_r; auto.
    destruct (remote_parse _ _) as [n' [[|]|e]].
    2: exists c, tr, (Ok tt), []; rewrite app_nil_r; auto.
    2: exists c, tr, (Err e), []; rewrite app_nil_r; auto.
    destruct (add_found_node _ _ _ _) as [[c1 tr1] r1] eqn:A. destruct (add_found_node_events _ _ _ _ _ _ _ A) as (evs & -> & F).
    destruct r1 as [b|e]; [exists c1, (tr ++ evs), (Ok tt), evs|exists c1, (tr ++ evs), (Err e), evs]; auto. }
  destruct K as (c1 & tr1 & r1 & evs & E & -> & F). rewrite E in H. clear E found.
  destruct r1 as [[]|e]. 2: injection H as <- <- <-; eauto.
  set (upd := if _ || _ then _ else _) in H.
  assert (K : exists c2 tr2 r2 evs2, upd = (c2, tr2, r2) /\ tr2 = tr ++ evs ++ evs2 /\ Forall listener_event evs2).
  { unfold upd. destruct (_ || _).
    2: exists c1, (tr ++ evs), (Ok tt), []; rewrite !app_nil_r; auto.
    destruct (update_properties _ _ _ _) as [[c2 tr2] r2] eqn:U. apply update_properties_events in U. destruct U as (e2 & -> & F2).
    exists c2, ((tr ++ evs) ++ e2), r2, e2. rewrite app_assoc. auto. }
  destruct K as (c2 & tr2 & r2 & evs2 & E & -> & F2). rewrite E in H. clear E upd.
  assert (FF : Forall listener_event (evs ++ evs2)) by now apply Forall_app.
  destruct r2 as [[]|e]. 2: injection H as <- <- <-; eauto.
  destruct (is_waiting c2). 2: injection H as <- <- <-; eauto.
  destruct (c_req c2). 2: injection H as <- <- <-; eauto.
  destruct (is_response_message _ _); injection H as <- <- <-; eauto.
Qed.

Lemma node_received_spec w tr s a m : received_from a m ->
  exists s' evs r, node_received w tr s m = (s', tr ++ evs, r) /\
  ((ln_ctl s = None \/ is_request (m_ESV m) = true) -> local_spec w s a m s' evs r) /\
  (ln_ctl s <> None -> is_request (m_ESV m) = false -> Forall listener_event evs /\ exists c', s' = set_ln_ctl (Some c') s).
Proof.
  intros Hm. unfold node_received. destruct (ln_ctl s) as [c|] eqn:C.
  2:{ destruct (local_received_spec w tr s a m Hm) as (s' & evs & r & E & L). exists s', evs, r. split; [exact E|]. split; [auto|intros []; reflexivity]. }
  unfold ctl_received. rewrite self_never, andb_false_r.
  assert (RS : is_response (m_ESV m) = negb (is_request (m_ESV m))) by apply CodecP.L_C10_esv_classification.
  rewrite RS. destruct (is_request (m_ESV m)) eqn:R; cbn [negb].
  - destruct (local_received_spec w tr s a m Hm) as (s' & evs & r & E & L). rewrite E. exists s', evs, r.
    split; [destruct r as [[]|]; reflexivity|]. split; [auto|intros _ K; discriminate].
  - rewrite C. destruct (ctl_response w tr c m) as [[c' tr'] r] eqn:E. destruct (ctl_response_events _ _ _ _ _ _ _ E) as (evs & -> & F).
    exists (set_ln_ctl (Some c') s), evs, r. split; [reflexivity|]. split; [intros [K|K]; discriminate|]. intros _ _. eauto.
Qed.
End CtlEvents.

(** ** C30 *)
Lemma zget_put c k o s : zget k (ln_objs (put_obj c o s)) = if k =? c then Some o else zget k (ln_objs s).
Proof. unfold put_obj, ln_objs. cbn [ln_node set_ln_node n_objs]. apply dget_dset. apply zeqb_eq. Qed.
Lemma put_keys c o o0 s : zget c (ln_objs s) = Some o0 -> dkeys (ln_objs (put_obj c o s)) = dkeys (ln_objs s).
Proof.
  intros H. unfold put_obj, ln_objs. cbn [ln_node set_ln_node n_objs].
  rewrite dkeys_dset. unfold ln_objs in H. rewrite H. reflexivity.
Qed.

Lemma L_C30_addressed : forall (PS : PySet) w tr s a m s' tr' r, received_from a m ->
  node_received w tr s m = (s', tr', r) ->
  exists evs, tr' = tr ++ evs /\
  (forall k, k <> m_DEOJ m -> zget k (ln_objs s') = zget k (ln_objs s)) /\
  dkeys (ln_objs s') = dkeys (ln_objs s) /\
  ln_addr s' = ln_addr s /\ ln_prof s' = ln_prof s /\ ln_opts s' = ln_opts s /\
  g_servers (ln_mgr s') = g_servers (ln_mgr s) /\
  (forall o, zget (m_DEOJ m) (ln_objs s) = Some o ->
     (zget (m_DEOJ m) (ln_objs s') = Some o \/ zget (m_DEOJ m) (ln_objs s') = Some (obj_step o m)) /\
     (quiet w -> ln_ctl s = None \/ In (m_ESV m) [0x60; 0x61; 0x62; 0x63; 0x6E; 0x74] ->
        zget (m_DEOJ m) (ln_objs s') = Some (obj_step o m) /\
        exists rest, evs = map (fun n => EvObjObs (m_DEOJ m) n m) (o_obs o) ++ rest)) /\
  (forall c n q, In (EvObjObs c n q) evs -> c = m_DEOJ m /\ q = m) /\
  (zget (m_DEOJ m) (ln_objs s) = None ->
     sent evs = [] /\ s' = set_ln_ctl (ln_ctl s') s /\ (ln_ctl s = None -> s' = s /\ evs = [])).
Proof.
  intros PS w tr s a m s' tr' r Hm H. destruct (node_received_spec w tr s a m Hm) as (s1 & evs & r1 & E & L & C).
  rewrite E in H. injection H as -> <- ->. exists evs. split; [reflexivity|].
  assert (RQ : is_request (m_ESV m) = true <-> In (m_ESV m) [0x60; 0x61; 0x62; 0x63; 0x6E; 0x74]) by apply L_C10_esv_classification.
  assert (D : (ln_ctl s = None \/ is_request (m_ESV m) = true) \/ (ln_ctl s <> None /\ is_request (m_ESV m) = false)).
  { destruct (ln_ctl s); [|auto]. destruct (is_request (m_ESV m)); [auto|]. right. split; [discriminate|reflexivity]. }
  destruct D as [D|[D1 D2]].
  - clear C. specialize (L D). unfold local_spec in L. destruct (zget (m_DEOJ m) (ln_objs s)) as [o|] eqn:Z.
    2:{ destruct L as (-> & -> & ->). do 6 (split; [reflexivity|]). split; [discriminate|]. split; [intros c n q []|].
        intros _. split; [reflexivity|]. split; [destruct s; reflexivity|auto]. }
    destruct L as (obsevs & snds & -> & F & K).
    assert (EV : forall c n q, In (EvObjObs c n q) (obsevs ++ map ev_of snds) -> c = m_DEOJ m /\ q = m).
    { intros c n q I. apply in_app_iff in I. destruct I as [I|I].
      - rewrite Forall_forall in F. destruct (F _ I) as (k & J). injection J as -> -> ->. auto.
      - apply in_map_iff in I. destruct I as ([[[? ?] ?] ?] & J & _). discriminate. }
    destruct K as [(-> & -> & NQ & e & ->)|K].
    { do 6 (split; [reflexivity|]). split; [|split; [exact EV|discriminate]].
      intros o1 [= <-]. split; [now left|]. intros Q. contradiction. }
    destruct (obj_message_received o m) as [[o' told] x] eqn:O. destruct K as (-> & g' & -> & G & K).
    assert (OS : o' = obj_step o m) by (unfold obj_step; rewrite O; reflexivity). subst o'.
    split; [intros k Hk; change (ln_objs (set_ln_mgr g' ?s)) with (ln_objs s); rewrite zget_put; destruct (Z.eqb_spec k (m_DEOJ m)); congruence|].
    split; [change (ln_objs (set_ln_mgr g' ?s)) with (ln_objs s); eapply put_keys; exact Z|].
    split; [reflexivity|]. split; [reflexivity|]. split; [reflexivity|]. split; [exact G|].
    split; [|split; [exact EV|discriminate]].
    intros o1 [= <-]. change (ln_objs (set_ln_mgr g' ?s)) with (ln_objs s). rewrite zget_put, Z.eqb_refl.
    split; [now right|]. intros _ _. split; [reflexivity|]. eauto.
  - destruct (C D1 D2) as (F & c' & ->).
    split; [reflexivity|]. split; [reflexivity|]. split; [reflexivity|]. split; [reflexivity|]. split; [reflexivity|]. split; [reflexivity|].
    split; [|split].
    + intros o Z. split; [now left|]. intros _ [X|X]; [contradiction|]. apply RQ in X. congruence.
    + intros c n q I. rewrite Forall_forall in F. destruct (F _ I).
    + intros Z. split; [now apply listener_events_sent|]. split; [reflexivity|]. contradiction.
Qed.

(** The other objects are not consulted. *)
Lemma local_isolated (PS : PySet) w tr s1 s2 m : copy_msg m = Ok m -> same_but (m_DEOJ m) s1 s2 ->
  let '(s1', t1, r1) := local_received w tr s1 m in
  let '(s2', t2, r2) := local_received w tr s2 m in
  t1 = t2 /\ r1 = r2 /\ same_but (m_DEOJ m) s1' s2'.
Proof.
  intros C (Z & G & CT & O & A). unfold local_received. rewrite !self_never, !andb_false_r, C.
  unfold get_object. cbn [new_object set_code fst o_code]. fold (ln_objs s1) (ln_objs s2). rewrite <- Z.
  destruct (zget (m_DEOJ m) (ln_objs s1)) as [o|] eqn:E. 2: repeat split; congruence.
  destruct (calls _ _ _) as [tr1 [[]|e]]. 2: repeat split; congruence.
  destruct (obj_message_received o m) as [[o' told] [[rsp|]|e]].
  - destruct (is_notification _).
    + unfold local_announce. change (ln_ctl (put_obj ?k ?o ?s)) with (ln_ctl s). change (ln_mgr (put_obj ?k ?o ?s)) with (ln_mgr s).
      rewrite <- G, <- CT. destruct (mgr_announce _ _ _ _) as [[[g tr2] m2] [b|e]];
      (split; [reflexivity|]; split; [reflexivity|]; unfold same_but; change (ln_objs (set_ln_mgr g ?s)) with (ln_objs s); rewrite !zget_put, Z.eqb_refl; repeat split; first [reflexivity|assumption]).
    + unfold local_send. change (ln_ctl (put_obj ?k ?o ?s)) with (ln_ctl s). change (ln_mgr (put_obj ?k ?o ?s)) with (ln_mgr s).
      rewrite <- G, <- CT. destruct (mgr_send _ _ _ _ _) as [[[g tr2] m2] [b|e]];
      (split; [reflexivity|]; split; [reflexivity|]; unfold same_but; change (ln_objs (set_ln_mgr g ?s)) with (ln_objs s); rewrite !zget_put, Z.eqb_refl; repeat split; first [reflexivity|assumption]).
  - split; [reflexivity|]. split; [reflexivity|]. unfold same_but. rewrite !zget_put, Z.eqb_refl. repeat split; first [reflexivity|assumption].
  - split; [reflexivity|]. split; [reflexivity|]. unfold same_but. rewrite !zget_put, Z.eqb_refl. repeat split; first [reflexivity|assumption].
Qed.

Lemma L_C30_isolation : forall (PS : PySet) w tr s1 s2 a m, received_from a m -> same_but (m_DEOJ m) s1 s2 ->
  let '(s1', tr1, r1) := node_received w tr s1 m in
  let '(s2', tr2, r2) := node_received w tr s2 m in
  tr1 = tr2 /\ r1 = r2 /\ same_but (m_DEOJ m) s1' s2'.
Proof.
  intros PS w tr s1 s2 a m Hm S. destruct (received_copy a m Hm) as (C & _). unfold node_received.
  pose proof S as (Z & G & CT & O & A). rewrite <- CT. destruct (ln_ctl s1) as [c|] eqn:E1; [|now apply local_isolated].
  unfold ctl_received. rewrite !self_never, !andb_false_r.
  pose proof (local_isolated PS w tr s1 s2 m C S) as L.
  assert (L2 : let '(s1', t1, r1) := if is_request (m_ESV m) then local_received w tr s1 m else (s1, tr, Ok tt) in
               let '(s2', t2, r2) := if is_request (m_ESV m) then local_received w tr s2 m else (s2, tr, Ok tt) in
               t1 = t2 /\ r1 = r2 /\ same_but (m_DEOJ m) s1' s2') by (destruct (is_request (m_ESV m)); [exact L|auto]).
  destruct (if is_request (m_ESV m) then local_received w tr s1 m else (s1, tr, Ok tt)) as [[s1' t1] r1].
  destruct (if is_request (m_ESV m) then local_received w tr s2 m else (s2, tr, Ok tt)) as [[s2' t2] r2].
  destruct L2 as (<- & <- & S2). destruct r1 as [[]|e]; [|auto].
  destruct (negb _); [auto|]. pose proof S2 as (Z2 & G2 & CT2 & O2 & A2). rewrite <- CT2. destruct (ln_ctl s1'); [|auto].
  destruct (ctl_response _ _ _ _) as [[c' tr2] r]. repeat split; first [reflexivity|assumption].
Qed.
