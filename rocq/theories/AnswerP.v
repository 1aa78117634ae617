(** Lemmas for C31-C33, C37, C59, C62. *)
From Verif Require Import PyBase BytesM EsvM MsgM PropM ObjM DbData DbM NodeM LocalM CtrlM
  SpecWire SpecObj SpecMap SpecReq SpecNode SpecProf SpecLocal DictP BytesP WireP CodecP ObjP MapP ReqP NodeP ProfP LocalP.
Require Import ZifyBool.

(** ** Sequences of attempts *)
Lemma tries_all b d ifs l : tries b d ifs l -> forall x, In x l -> send_bytes x = b /\ snd (fst x) = d.
Proof.
  induction 1; intros x Hx; [destruct Hx|..].
  - destruct Hx as [<-|[]]. split; reflexivity.
  - destruct Hx as [<-|[]]. split; reflexivity.
  - destruct Hx as [<-|Hx]; [split; reflexivity|auto].
Qed.
Lemma casts_all b d ifs l : casts b d ifs l -> forall x, In x l -> send_bytes x = b /\ snd (fst x) = d.
Proof.
  induction 1; intros x Hx; [destruct Hx|..].
  - destruct Hx as [<-|[]]. split; reflexivity.
  - destruct Hx as [<-|Hx]; [split; reflexivity|auto].
Qed.
Lemma tries_once b d ifs l : tries b d ifs l -> (length (filter delivered l) <= 1)%nat.
Proof.
  induction 1; cbn [filter delivered snd]; try (cbn; lia).
  - destruct (0 <? n); cbn; lia.
  - replace (0 <? n) with false by lia. exact IHtries.
Qed.
Lemma tries_reliable w b d ifs l : b <> [] -> reliable w -> tries b d ifs l -> Forall (from_os w) l ->
  match ifs with [] => l = [] | i :: _ => exists n, l = [(i, b, d, Ok n)] /\ 0 < n end.
Proof.
  intros NE R T F. destruct T.
  - reflexivity.
  - eauto.
  - apply Forall_inv in F. destruct F as (t & F). destruct (R t i b d NE) as (n & E & _). congruence.
  - apply Forall_inv in F. destruct F as (t & F). destruct (R t i b d NE) as (k & E & K). rewrite E in F. injection F as ->. lia.
Qed.
Lemma casts_no_raise w b d ifs l : b <> [] -> no_raise w -> casts b d ifs l -> Forall (from_os w) l ->
  map (fun x => (fst (fst (fst x)), send_bytes x, snd (fst x))) l = map (fun i => (i, b, d)) ifs.
Proof.
  intros NE R T. induction T; intros F; [reflexivity| |].
  - apply Forall_inv in F. destruct F as (t & F). destruct (R t i b d NE) as (n & E). congruence.
  - cbn [map fst snd]. f_equal. apply IHT. eapply Forall_inv_tail. exact F.
Qed.
Lemma no_raise_raised w l e : no_raise w -> Forall (fun x => send_bytes x <> []) l -> Forall (from_os w) l -> ~ raised l e.
Proof.
  intros R NE F ([[[i b] d] r] & Hx & E). rewrite Forall_forall in F, NE. destruct (F _ Hx) as (t & K). cbn [snd] in E.
  destruct (R t i b d (NE _ Hx)) as (n & Q). congruence.
Qed.
Lemma reliable_no_raise w : reliable w -> no_raise w.
Proof. intros R tr i b d NE. destruct (R tr i b d NE) as (n & E & _). eauto. Qed.

Lemma wire_nonempty m : wire m <> [].
Proof. discriminate. Qed.

(** ** C31 *)
Lemma response_request o m o' told rsp : obj_message_received o m = (o', told, Ok (Some rsp)) -> is_request (m_ESV m) = true.
Proof. unfold obj_message_received. destruct (is_request (m_ESV m)); [reflexivity|discriminate]. Qed.

Definition by_mode (s : lnode) (a : addr) (rsp : msg) (b : list Z) (l : list send) : Prop :=
  if m_ESV rsp =? 0x73 then casts b MULTICAST (open_ifs s) l else tries b a (open_ifs s) l.

Lemma by_mode_nonempty s a rsp b l : b <> [] -> by_mode s a rsp b l -> Forall (fun x => send_bytes x <> []) l.
Proof.
  intros N M. apply Forall_forall. intros x Hx. unfold by_mode in M. destruct (m_ESV rsp =? 0x73).
  - destruct (casts_all _ _ _ _ M x Hx) as (-> & _). exact N.
  - destruct (tries_all _ _ _ _ M x Hx) as (-> & _). exact N.
Qed.

(** What node_received sends. *)
Definition stamp (s : lnode) (m rsp : msg) (b : list Z) : Prop :=
  exists g' t, stamped (ln_mgr s) m g' t /\ b = wire (set_TID t (set_SEOJ (source s rsp) rsp)).

Lemma node_sends (PS : PySet) w tr s a m s' tr' r : received_from a m -> node_received w tr s m = (s', tr', r) ->
  exists evs, tr' = tr ++ evs /\ Forall (from_os w) (sent evs) /\
  (sent evs = [] \/
   exists o o' told rsp b, zget (m_DEOJ m) (ln_objs s) = Some o /\
     obj_message_received o m = (o', told, Ok (Some rsp)) /\ encodable rsp /\
     stamp s m rsp b /\ by_mode s a rsp b (sent evs) /\ answer_result (sent evs) r) /\
  (quiet w -> forall o o' told rsp, zget (m_DEOJ m) (ln_objs s) = Some o ->
     obj_message_received o m = (o', told, Ok (Some rsp)) ->
     (encodable rsp -> exists b, stamp s m rsp b /\ by_mode s a rsp b (sent evs) /\ answer_result (sent evs) r) /\
     (~ encodable rsp -> sent evs = [] /\ r = match open_ifs s with [] => Ok tt | _ => Err ValueError end)) /\
  (quiet w -> ln_ctl s = None \/ is_request (m_ESV m) = true ->
     match zget (m_DEOJ m) (ln_objs s) with
     | None => r = Ok tt
     | Some o => match obj_message_received o m with
                 | (_, _, Err e) => r = Err e
                 | (_, _, Ok None) => r = Ok tt
                 | _ => True
                 end
     end).
Proof.
  intros Hm H. destruct (node_received_spec w tr s a m Hm) as (s1 & evs & r1 & E & L & C).
  rewrite E in H. injection H as -> <- ->. exists evs. split; [reflexivity|].
  assert (D : (ln_ctl s = None \/ is_request (m_ESV m) = true) \/ (ln_ctl s <> None /\ is_request (m_ESV m) = false)).
  { destruct (ln_ctl s); [|auto]. destruct (is_request (m_ESV m)); [auto|]. right. split; [discriminate|reflexivity]. }
  destruct D as [D|[D1 D2]].
  - clear C. specialize (L D). unfold local_spec in L. destruct (zget (m_DEOJ m) (ln_objs s)) as [o|] eqn:Z.
    2:{ destruct L as (-> & -> & ->). split; [constructor|]. split; [now left|]. split; [discriminate|auto]. }
    destruct L as (obsevs & snds & -> & F & K). rewrite sent_app, (obj_events_sent _ _ _ F), sent_evs. cbn [app].
    destruct K as [(-> & -> & NQ & e & ->)|K].
    { split; [constructor|]. split; [now left|]. split; intros Q; contradiction. }
    destruct (obj_message_received o m) as [[o' told] x] eqn:O. destruct K as (-> & g' & -> & G & K).
    destruct x as [[rsp|]|e].
    + destruct K as (t & ST & [(EN & M & FO & R)|(EN & -> & R)]).
      * split; [exact FO|]. split; [right|split].
        -- do 5 eexists. split; [reflexivity|]. split; [exact O|]. split; [exact EN|]. split; [|split; [exact M|exact R]]. exists g', t. auto.
        -- intros _ o1 o2 told1 rsp1 [= <-] O2. rewrite O in O2. injection O2 as <- <- <-. split; [|tauto]. intros _.
           eexists. split; [exists g', t; split; [exact ST|reflexivity]|]. split; [exact M|exact R].
        -- auto.
      * split; [constructor|]. split; [now left|]. split; [|auto].
        intros _ o1 o2 told1 rsp1 [= <-] O2. rewrite O in O2. injection O2 as <- <- <-. split; [tauto|auto].
    + destruct K as (-> & _ & ->). split; [constructor|]. split; [now left|]. split; [|auto].
      intros _ o1 o2 told1 rsp1 [= <-] O2. congruence.
    + destruct K as (-> & _ & ->). split; [constructor|]. split; [now left|]. split; [|auto].
      intros _ o1 o2 told1 rsp1 [= <-] O2. congruence.
  - destruct (C D1 D2) as (F & c' & ->). rewrite (listener_events_sent _ F). split; [constructor|]. split; [now left|]. split.
    + intros _ o o' told rsp _ O. apply response_request in O. congruence.
    + intros _ [X|X]; [contradiction|congruence].
Qed.

Lemma stamp_fields s m rsp b : stamp s m rsp b -> exists t,
  b = wire (mkmsg t (source s rsp) (m_DEOJ rsp) (m_ESV rsp) (m_props rsp) (m_sets rsp) (m_gets rsp) (m_from rsp) (m_to rsp)) /\
  (m_TID m <> 0 -> t = m_TID m).
Proof.
  intros (g' & t & S & ->). exists t. split; [destruct rsp; reflexivity|]. intros N. unfold stamped in S.
  destruct (Z.eqb_spec (m_TID m) 0); [contradiction|]. tauto.
Qed.

Lemma L_C31_destinations : forall (PS : PySet) w tr s a m s' tr' r, received_from a m ->
  node_received w tr s m = (s', tr', r) ->
  exists evs, tr' = tr ++ evs /\
  (sent evs = [] \/
   exists o o' told rsp b, zget (m_DEOJ m) (ln_objs s) = Some o /\
     obj_message_received o m = (o', told, Ok (Some rsp)) /\
     (exists t q, b = wire (set_TID t (set_SEOJ q rsp))) /\
     (if m_ESV rsp =? 0x73 then casts b ("224.0.23.0"%string, 3610) (open_ifs s) (sent evs)
      else tries b a (open_ifs s) (sent evs) /\ (length (filter delivered (sent evs)) <= 1)%nat)).
Proof.
  intros PS w tr s a m s' tr' r Hm H. destruct (node_sends PS w tr s a m s' tr' r Hm H) as (evs & -> & _ & K & _).
  exists evs. split; [reflexivity|]. destruct K as [K|(o & o' & told & rsp & b & Z & O & _ & S & M & _)]; [now left|right].
  exists o, o', told, rsp, b. split; [exact Z|]. split; [exact O|]. split.
  - destruct S as (g' & t & _ & ->). eauto.
  - unfold by_mode in M. destruct (m_ESV rsp =? 0x73); [exact M|]. split; [exact M|]. eapply tries_once. exact M.
Qed.

Lemma L_C31_answered : forall (PS : PySet) w tr s a m s' tr' r o o' told rsp i ifs, quiet w -> reliable w -> received_from a m ->
  node_received w tr s m = (s', tr', r) -> open_ifs s = i :: ifs ->
  zget (m_DEOJ m) (ln_objs s) = Some o -> obj_message_received o m = (o', told, Ok (Some rsp)) -> encodable rsp ->
  exists evs b t q, tr' = tr ++ evs /\ b = wire (set_TID t (set_SEOJ q rsp)) /\ r = Ok tt /\
  (m_ESV rsp <> 0x73 -> exists n, sent evs = [(i, b, a, Ok n)]) /\
  (m_ESV rsp = 0x73 ->
     map (fun x => (fst (fst (fst x)), send_bytes x, snd (fst x))) (sent evs) = map (fun i => (i, b, ("224.0.23.0"%string, 3610))) (open_ifs s)).
Proof.
  intros PS w tr s a m s' tr' r o o' told rsp i ifs Q R Hm H I Z O E.
  destruct (node_sends PS w tr s a m s' tr' r Hm H) as (evs & -> & F & _ & K & _).
  destruct (K Q o o' told rsp Z O) as (K1 & _). destruct (K1 E) as (b & S & M & A). pose proof S as (g' & t & _ & EB).
  assert (NE : b <> []) by (rewrite EB; apply wire_nonempty).
  exists evs, b, t, (source s rsp). split; [reflexivity|]. split; [exact EB|]. split.
  - destruct r as [[]|e]; [reflexivity|]. exfalso. exact (no_raise_raised w _ e (reliable_no_raise w R) (by_mode_nonempty _ _ _ _ _ NE M) F A).
  - unfold by_mode in M. split; intros N.
    + replace (m_ESV rsp =? 0x73) with false in M by lia. pose proof (tries_reliable w _ _ _ _ NE R M F) as T. rewrite I in T.
      destruct T as (n & T & _). eauto.
    + rewrite N in M. cbn in M. exact (casts_no_raise w _ _ _ _ NE (reliable_no_raise w R) M F).
Qed.

(** ** Bytes of a frame *)
Lemma slice_tid m tail : slice (wire m ++ tail) 2 4 = be 2 (m_TID m).
Proof. unfold wire, wire_header, slice. rewrite be2, !be3. reflexivity. Qed.
Lemma slice_seoj m tail : slice (wire m ++ tail) 4 7 = be 3 (m_SEOJ m).
Proof. unfold wire, wire_header, slice. rewrite be2, !be3. reflexivity. Qed.
Lemma slice_deoj m tail : slice (wire m ++ tail) 7 10 = be 3 (m_DEOJ m).
Proof. unfold wire, wire_header, slice. rewrite be2, !be3. reflexivity. Qed.

Lemma parsed_received d f a : bytes_ok d -> parse_bytes new_msg d = (f, Ok true) -> received_from a (set_from (Some a) f) /\
  exists tail, d = wire f ++ tail.
Proof.
  intros B P. destruct (parse_new_inv _ _ B P) as (F & tail & ->). split; [exists f; auto|eauto].
Qed.

Lemma sends_bytes (PS : PySet) w tr s a m s' tr' r : received_from a m -> node_received w tr s m = (s', tr', r) ->
  exists evs, tr' = tr ++ evs /\ forall x, In x (sent evs) ->
    (m_TID m <> 0 -> slice (send_bytes x) 2 4 = be 2 (m_TID m)) /\
    slice (send_bytes x) 4 7 = be 3 (match ln_ctl s with None => m_DEOJ m | Some _ => NP end) /\
    slice (send_bytes x) 7 10 = be 3 (m_SEOJ m).
Proof.
  intros Hm H. destruct (node_sends PS w tr s a m s' tr' r Hm H) as (evs & -> & _ & K & _). exists evs. split; [reflexivity|].
  intros x Hx. destruct K as [K|(o & o' & told & rsp & b & Z & O & _ & S & M & _)]; [rewrite K in Hx; destruct Hx|].
  assert (B : send_bytes x = b).
  { unfold by_mode in M. destruct (m_ESV rsp =? 0x73); [exact (proj1 (casts_all _ _ _ _ M x Hx))|exact (proj1 (tries_all _ _ _ _ M x Hx))]. }
  rewrite B. destruct (stamp_fields _ _ _ _ S) as (t & -> & T). destruct (L_C18_correlation _ _ _ _ _ O) as (T1 & T2 & T3).
  rewrite <- (app_nil_r (wire _)). rewrite slice_tid, slice_seoj, slice_deoj. cbn [m_TID m_SEOJ m_DEOJ]. unfold source.
  split; [intros N; now rewrite T|]. rewrite T3, T2. split; [destruct (ln_ctl s); reflexivity|reflexivity].
Qed.

Lemma L_C32_tid_partial : forall (PS : PySet) w tr s a d f s' tr' r, bytes_ok d -> parse_bytes new_msg d = (f, Ok true) ->
  slice d 2 4 <> [0; 0] ->
  node_received w tr s (set_from (Some a) f) = (s', tr', r) ->
  exists evs, tr' = tr ++ evs /\ forall x, In x (sent evs) -> slice (send_bytes x) 2 4 = slice d 2 4.
Proof.
  intros PS w tr s a d f s' tr' r B P N H. destruct (parsed_received d f a B P) as (Hm & tail & ->).
  destruct (sends_bytes PS w tr s a _ s' tr' r Hm H) as (evs & -> & K). exists evs. split; [reflexivity|].
  intros x Hx. destruct (K x Hx) as (K1 & _). rewrite slice_tid in *. apply K1. cbn [m_TID set_from]. intros Q. rewrite Q in N.
  apply N. reflexivity.
Qed.

Lemma L_C59_source_partial : forall (PS : PySet) w tr s a d f s' tr' r, bytes_ok d -> parse_bytes new_msg d = (f, Ok true) ->
  ln_ctl s = None \/ slice d 7 10 = [0x0E; 0xF0; 0x01] ->
  node_received w tr s (set_from (Some a) f) = (s', tr', r) ->
  exists evs, tr' = tr ++ evs /\ forall x, In x (sent evs) -> slice (send_bytes x) 4 7 = slice d 7 10.
Proof.
  intros PS w tr s a d f s' tr' r B P N H. destruct (parsed_received d f a B P) as (Hm & tail & ->).
  destruct (sends_bytes PS w tr s a _ s' tr' r Hm H) as (evs & -> & K). exists evs. split; [reflexivity|].
  intros x Hx. destruct (K x Hx) as (_ & K2 & _). rewrite slice_deoj in *. rewrite K2. cbn [m_DEOJ set_from].
  destruct N as [N|N]; [now rewrite N|]. destruct (ln_ctl s); [rewrite N; reflexivity|reflexivity].
Qed.

(** ** Refutations *)
Definition lamp : obj :=
  mkobj 0x029101 "" [(0x80, mkoprop 0x80 [0x30] 1 1 1)] HSuper 0 [] CObject.
Definition lamp_node (c : option ctl) : lnode :=
  fst (fst (local_start good_os [] (mkln (mknode None [(0x029101, lamp)]) InTable 1 new_manager c) [])).
Definition own : addr := ("192.168.0.2"%string, 3610).
Definition read_80 (t : Z) : list Z := [0x10; 0x81; 0; t; 5; 0xFF; 1; 2; 0x91; 1; 0x62; 1; 0x80; 0].

Lemma read_80_bytes t : 0 <= t < 256 -> bytes_ok (read_80 t).
Proof. intros H. repeat constructor; unfold byte_ok; lia. Qed.

Lemma L_C32_tid_refuted : exists w s a d f, bytes_ok d /\ parse_bytes new_msg d = (f, Ok true) /\
  quiet w /\ reliable w /\ ln_ctl s = None /\
  forall PS : PySet, exists s' x, node_received w [] s (set_from (Some a) f) = (s', [EvSend (fst (fst (fst x))) (send_bytes x) a (snd x)], Ok tt) /\
    slice d 2 4 = [0; 0] /\ slice (send_bytes x) 2 4 = [0; 1].
Proof.
  exists good_os, (lamp_node None), ("10.0.0.9"%string, 3610), (read_80 0). eexists.
  split; [apply read_80_bytes; lia|]. split; [vm_compute; reflexivity|].
  split; [intros tr ev; reflexivity|]. split.
  { intros tr i b d N. eexists. split; [reflexivity|]. destruct b; [contradiction|]. unfold zlen. cbn [length]. lia. }
  split; [reflexivity|]. intros PS. eexists. exists ("192.168.0.2"%string, [16; 129; 0; 1; 2; 145; 1; 5; 255; 1; 114; 1; 128; 1; 48], ("10.0.0.9"%string, 3610), Ok 15).
  split; [vm_compute; reflexivity|]. split; reflexivity.
Qed.

Lemma good_quiet : quiet good_os.
Proof. intros tr ev. reflexivity. Qed.
Lemma good_reliable : reliable good_os.
Proof. intros tr i b d N. eexists. split; [reflexivity|]. destruct b; [contradiction|]. unfold zlen. cbn [length]. lia. Qed.

Lemma L_C59_source_refuted : exists w s a d f, bytes_ok d /\ parse_bytes new_msg d = (f, Ok true) /\
  quiet w /\ reliable w /\ ln_ctl s <> None /\
  forall PS : PySet, exists s' b n i, node_received w [] s (set_from (Some a) f) = (s', [EvSend i b a (Ok n)], Ok tt) /\
    slice d 7 10 = [2; 0x91; 1] /\ slice b 4 7 = [0x0E; 0xF0; 0x01].
Proof.
  exists good_os, (lamp_node (Some new_ctl)), ("10.0.0.9"%string, 3610), (read_80 7). eexists.
  split; [apply read_80_bytes; lia|]. split; [vm_compute; reflexivity|].
  split; [exact good_quiet|]. split; [exact good_reliable|]. split; [discriminate|].
  intros PS. eexists _, _, _, _. split; [vm_compute; reflexivity|]. split; reflexivity.
Qed.

(** ** C33 *)
Lemma L_C33_self_ignored_refuted : exists w s a d f, bytes_ok d /\ parse_bytes new_msg d = (f, Ok true) /\
  is_enabled IGNORE_SELF_MESSAGE s = true /\ ln_addr s = Some a /\
  forall PS : PySet, exists s' b n i, node_received w [] s (set_from (Some a) f) = (s', [EvSend i b a (Ok n)], Ok tt).
Proof.
  exists good_os, (lamp_node None), own, (read_80 7). eexists.
  split; [apply read_80_bytes; lia|]. split; [vm_compute; reflexivity|]. split; [reflexivity|]. split; [reflexivity|].
  intros PS. eexists _, _, _, _. vm_compute. reflexivity.
Qed.

Lemma local_opts w tr s m v : local_received w tr (set_ln_opts v s) m =
  let '(s', tr', r) := local_received w tr s m in (set_ln_opts v s', tr', r).
Proof.
  unfold local_received. rewrite !self_never, !andb_false_r. destruct (copy_msg m) as [req|e]; [|reflexivity].
  cbn [set_ln_opts ln_node]. destruct (get_object _ _) as [o|]; [|reflexivity].
  destruct (calls _ _ _) as [tr1 [[]|e]]; [|reflexivity].
  destruct (obj_message_received o req) as [[o' told] [[rsp|]|e]]; [|reflexivity|reflexivity].
  destruct (is_notification _).
  - unfold local_announce. cbn [ln_ctl ln_mgr put_obj set_ln_node]. destruct (mgr_announce _ _ _ _) as [[[g tr2] m2] [b|e]]; reflexivity.
  - unfold local_send. cbn [ln_ctl ln_mgr put_obj set_ln_node]. destruct (mgr_send _ _ _ _ _) as [[[g tr2] m2] [b|e]]; reflexivity.
Qed.
(** Whatever the options, a node handles every message alike. *)
Lemma L_C33_option_no_effect_refuted : forall (PS : PySet) w tr s m v, node_received w tr (set_ln_opts v s) m =
  let '(s', tr', r) := node_received w tr s m in (set_ln_opts v s', tr', r).
Proof.
  intros PS w tr s m v. unfold node_received. change (ln_ctl (set_ln_opts v s)) with (ln_ctl s).
  destruct (ln_ctl s) as [c|]; [|apply local_opts].
  unfold ctl_received. rewrite !self_never, !andb_false_r, local_opts.
  destruct (is_request (m_ESV m)).
  - destruct (local_received w tr s m) as [[s1 tr1] [[]|e]]; [|reflexivity]. destruct (negb _); [reflexivity|].
    change (ln_ctl (set_ln_opts v s1)) with (ln_ctl s1). destruct (ln_ctl s1); [|reflexivity].
    destruct (ctl_response _ _ _ _) as [[c' tr2] r]. reflexivity.
  - destruct (negb _); [reflexivity|].
    change (ln_ctl (set_ln_opts v s)) with (ln_ctl s). destruct (ln_ctl s); [|reflexivity].
    destruct (ctl_response _ _ _ _) as [[c' tr2] r]. reflexivity.
Qed.

(** ** C62 *)
Lemma frame_plain m : carried m = m -> plain m.
Proof.
  intros C. unfold plain. destruct (two_blocks (m_ESV m)) eqn:T; [|split]; rewrite <- C; cbn; rewrite T; reflexivity.
Qed.
Lemma received_props a m : received_from a m -> plain m /\ byte_ok (m_ESV m) /\ zlen (m_props m) <= 255 /\ zlen (m_sets m) <= 255 /\ zlen (m_gets m) <= 255 /\
  Forall fits_prop (m_props m) /\ Forall fits_prop (m_sets m) /\ Forall fits_prop (m_gets m).
Proof.
  intros (f & (E & T & C) & ->). split; [exact (frame_plain f C)|]. cbn [set_from m_ESV m_props m_sets m_gets]. destruct E as (E1 & E2). split; [exact E1|].
  pose proof (frame_plain f C) as P. unfold plain in P. destruct (two_blocks (m_ESV f)).
  - rewrite P. destruct E2 as ((A & B) & (D & F)). repeat split; auto. cbn. lia.
  - destruct P as (-> & ->). destruct E2 as (A & B). repeat split; auto; cbn; lia.
Qed.
Lemma answers_fit f l : zlen l <= 255 -> Forall fits_prop l -> (forall mp, In mp l -> zlen (fst (f mp)) <= 255) -> fits_list (answers f l).
Proof.
  intros L F H. unfold answers. split; [unfold zlen in *; rewrite map_length; exact L|].
  apply Forall_forall. intros p Hp. apply in_map_iff in Hp. destruct Hp as (mp & <- & Hmp). rewrite Forall_forall in F.
  split; cbn [p_code p_data]; [exact (proj1 (F _ Hmp))|auto].
Qed.
Lemma read_answer_fit o mp : fitting o -> zlen (fst (read_answer o mp)) <= 255.
Proof.
  intros (_ & _ & D). unfold read_answer. destruct (get_property _ _) as [p|] eqn:E; [|cbn; lia].
  destruct (can_read p); [exact (D _ _ E)|cbn; lia].
Qed.
Lemma write_answer_fit o mp : fits_prop mp -> zlen (fst (write_answer o mp)) <= 255.
Proof.
  intros (_ & F). unfold write_answer. destruct (get_property _ _) as [p|]; [|cbn; lia]. destruct (may_write _ _); [cbn; lia|exact F].
Qed.
Lemma last_data_fit c l d : Forall fits_prop l -> last_data c l = Some d -> zlen d <= 255.
Proof.
  induction 1 as [|mp l (F1 & F2) _ IH]; cbn [last_data]; [discriminate|].
  destruct (last_data c l) as [d'|]; [intros [= <-]; apply IH; reflexivity|]. destruct (p_code mp =? c); [intros [= <-]; exact F2|discriminate].
Qed.
Lemma written_fitting o l o' : written o l o' -> Forall fits_prop l -> fitting o -> fitting o'.
Proof.
  intros W F (B & Wf & D). split; [rewrite (written_handler _ _ _ W); exact B|]. split; [exact (written_wf _ _ _ W Wf)|].
  destruct W as (_ & _ & G). intros c p E. rewrite G in E. destruct (get_property c o) as [q|] eqn:Q; [|discriminate].
  injection E as <-. destruct (may_write _ _); [|exact (D _ _ Q)]. destruct (last_data c l) as [d|] eqn:L; [|exact (D _ _ Q)].
  cbn [op_data set_op_data]. exact (last_data_fit _ _ _ F L).
Qed.
Lemma written_obj o l o' : written o l o' -> o_code o' = o_code o /\ (forall c, has_property c o' = has_property c o).
Proof. intros W. split; [destruct W as (-> & _); reflexivity|]. intros c. exact (written_has _ _ _ _ W). Qed.

(** What a fitting object does with a received message. *)
Lemma fitting_message a m o : received_from a m -> fitting o ->
  (m_ESV m = 0x6E -> forall p, In p (m_gets m) -> has_property (p_code p) o = true) ->
  exists o' r, obj_message_received o m = (o', o_obs o, Ok r) /\ fitting o' /\ (forall c, has_property c o' = has_property c o) /\
    (forall rsp, r = Some rsp -> encodable rsp).
Proof.
  intros Hm Ft K. destruct (received_props a m Hm) as (P & EB & L1 & L2 & L3 & F1 & F2 & F3). pose proof Ft as (B & Wf & D).
  destruct (in_dec Z.eq_dec (m_ESV m) [0x60; 0x61; 0x62; 0x63; 0x6E; 0x74]) as [I|I].
  2:{ rewrite (L_C26_no_answer o m (or_introl I)). exists o, None. repeat split; auto; discriminate. }
  assert (HN : o_handler o <> HNone) by (now apply builtin_not_none).
  destruct I as [I|[I|[I|[I|[I|[I|[]]]]]]]; symmetry in I.
  1,2: destruct (L_C21_builtin_write o m B Wf P) as (o' & r & O & W & A & _); [tauto|]; exists o', r; split; [exact O|];
       split; [exact (written_fitting _ _ _ W F1 Ft)|]; split; [exact (proj2 (written_obj _ _ _ W))|]; intros rsp ->;
       destruct (response_shape _ _ _ _ _ O) as (e & ps & ss & gs & -> & _ & S); destruct S as (-> & -> & _); [rewrite I; reflexivity|];
       specialize (A _ eq_refl); cbn in A; subst ps; pose proof (obj_response_esv _ _ _ _ _ O) as RE; cbn [m_ESV resp_of] in RE;
       (split; cbn [m_ESV m_props m_sets m_gets resp_of]; [cbn in RE; unfold byte_ok; lia|]);
       (assert (FL : fits_list (answers (write_answer o) (m_props m))) by
          (apply answers_fit; auto; intros mp Hmp; apply write_answer_fit; rewrite Forall_forall in F1; auto));
       destruct (two_blocks e); [split; split; cbn; try lia; constructor|exact FL].
  - rewrite (L_C20_builtin_read o m B Wf P I). eexists o, _. split; [reflexivity|]. split; [exact Ft|]. split; [reflexivity|]. intros rsp [= <-].
    assert (FL : fits_list (answers (read_answer o) (m_props m))) by (apply answers_fit; auto; intros mp _; now apply read_answer_fit).
    destruct (all_accepted _ _); (split; [cbn; unfold byte_ok; lia|]); exact FL.
  - rewrite (L_C24_notification_request_partial o m HN P I). eexists o, _. split; [reflexivity|]. split; [exact Ft|]. split; [reflexivity|]. intros rsp [= <-].
    assert (FL : fits_list (map (fun mp => mkprop (p_code mp) []) (m_props m))).
    { change (fits_list (answers (fun _ => ([], false)) (m_props m))). apply answers_fit; auto. intros; cbn; lia. }
    destruct (m_props m); (split; [cbn; unfold byte_ok; lia|]); exact FL.
  - destruct (L_C22_write_read_partial o m B Wf P I) as (o' & W & O). rewrite O.
    assert (G : forallb (fun mp => has_property (p_code mp) o) (m_gets m) = true) by (apply forallb_forall; intros p Hp; exact (K I p Hp)).
    rewrite G. eexists o', _. split; [reflexivity|]. pose proof (written_fitting _ _ _ W F2 Ft) as Ft'. split; [exact Ft'|].
    split; [exact (proj2 (written_obj _ _ _ W))|]. intros rsp [= <-].
    assert (FS : fits_list (answers (write_answer o) (m_sets m))) by
      (apply answers_fit; auto; intros mp Hmp; apply write_answer_fit; rewrite Forall_forall in F2; auto).
    assert (FG : fits_list (answers (read_answer o') (m_gets m))) by (apply answers_fit; auto; intros mp _; now apply read_answer_fit).
    destruct (_ && _); (split; [cbn; unfold byte_ok; lia|]); exact (conj FS FG).
  - rewrite (L_C25_acknowledge_partial o m HN P I). eexists o, _. split; [reflexivity|]. split; [exact Ft|]. split; [reflexivity|]. intros rsp E.
    destruct (m_props m); [injection E as <-|discriminate]. split; [cbn; unfold byte_ok; lia|]. cbn. split; [cbn; lia|constructor].
Qed.

Lemma local_keeps_ctl w tr s m : ln_ctl (fst (fst (local_received w tr s m))) = ln_ctl s.
Proof.
  unfold local_received. destruct (_ && _); [reflexivity|]. destruct (copy_msg m) as [req|e]; [|reflexivity].
  destruct (get_object _ _) as [o|]; [|reflexivity]. destruct (calls _ _ _) as [tr1 [[]|e]]; [|reflexivity].
  destruct (obj_message_received o req) as [[o' told] [[rsp|]|e]]; [|reflexivity|reflexivity].
  destruct (is_notification _).
  - unfold local_announce. destruct (mgr_announce _ _ _ _) as [[[g tr2] m2] [b|e]]; reflexivity.
  - unfold local_send. destruct (mgr_send _ _ _ _ _) as [[[g tr2] m2] [b|e]]; reflexivity.
Qed.

Lemma fitting_step (PS : PySet) w tr s a m s' tr' r : quiet w -> no_raise w -> ln_ctl s = None -> fitting_node s ->
  received_from a m -> knows_gets s m -> node_received w tr s m = (s', tr', r) ->
  r = Ok tt /\ fitting_node s' /\ ln_ctl s' = None /\
  (forall k, match zget k (ln_objs s), zget k (ln_objs s') with
             | Some o, Some o' => forall c, has_property c o' = has_property c o
             | None, None => True
             | _, _ => False
             end).
Proof.
  intros Q N C Ft Hm K H.
  destruct (node_sends PS w tr s a m s' tr' r Hm H) as (evs & E & F & _ & A1 & A2).
  destruct (L_C30_addressed PS w tr s a m s' tr' r Hm H) as (evs2 & _ & O1 & _ & _ & _ & _ & _ & O2 & _ & O3).
  assert (C' : ln_ctl s' = None).
  { unfold node_received in H. rewrite C in H. pose proof (local_keeps_ctl w tr s m) as L. rewrite H in L. cbn in L. congruence. }
  specialize (A2 Q (or_introl C)). destruct (zget (m_DEOJ m) (ln_objs s)) as [o|] eqn:Z.
  2:{ subst r. destruct (O3 eq_refl) as (_ & _ & S). destruct (S C) as (-> & _). split; [reflexivity|]. split; [exact Ft|]. split; [exact C|].
      intros k. destruct (zget k (ln_objs s)); auto. }
  destruct (fitting_message a m o Hm (Ft _ _ Z) (fun I => K I o Z)) as (o' & x & O & Fo & Ho & En).
  destruct (O2 o eq_refl) as (_ & O4). destruct (O4 Q (or_introl C)) as (Z' & _).
  assert (OS : obj_step o m = o') by (unfold obj_step; rewrite O; reflexivity). rewrite OS in Z'.
  split; [|split; [|split; [exact C'|]]].
  - rewrite O in A2. destruct x as [rsp|]; [|exact A2]. destruct (A1 Q o o' _ rsp eq_refl O) as (A3 & _).
    destruct (A3 (En _ eq_refl)) as (b & (g & t & _ & EB) & M & R). destruct r as [[]|e]; [reflexivity|]. exfalso.
    refine (no_raise_raised w _ e N (by_mode_nonempty _ _ _ _ _ _ M) F R). rewrite EB. apply wire_nonempty.
  - intros k o1 Z1. destruct (Z.eq_dec k (m_DEOJ m)) as [Ek|Ek]; [subst k; rewrite Z' in Z1; injection Z1 as <-; exact Fo|].
    rewrite (O1 k Ek) in Z1. exact (Ft _ _ Z1).
  - intros k. destruct (Z.eq_dec k (m_DEOJ m)) as [Ek|Ek]; [subst k; rewrite Z', Z; exact Ho|].
    rewrite (O1 k Ek). destruct (zget k (ln_objs s)); auto.
Qed.

Lemma L_C62_survives_partial : forall (PS : PySet) w ms tr s s' tr' rs, quiet w -> no_raise w -> ln_ctl s = None -> fitting_node s ->
  Forall (fun m => (exists a, received_from a m) /\ knows_gets s m) ms ->
  received_all w tr s ms = (s', tr', rs) ->
  length rs = length ms /\ Forall (fun r => r = Ok tt) rs /\ fitting_node s'.
Proof.
  intros PS w ms. induction ms as [|m ms IH]; intros tr s s' tr' rs Q N C Ft F; cbn [received_all].
  - intros [= <- <- <-]. split; [reflexivity|]. split; [constructor|exact Ft].
  - destruct (node_received w tr s m) as [[s1 tr1] r] eqn:E. destruct (received_all w tr1 s1 ms) as [[s2 tr2] rs2] eqn:R.
    intros [= <- <- <-]. pose proof (Forall_inv F) as ((a & Hm) & K).
    destruct (fitting_step PS w tr s a m s1 tr1 r Q N C Ft Hm K E) as (-> & Ft1 & C1 & H1).
    assert (F1 : Forall (fun m => (exists a, received_from a m) /\ knows_gets s1 m) ms).
    { eapply Forall_impl; [|exact (Forall_inv_tail F)]. intros m1 (X & Y). split; [exact X|]. intros I o1 Z1 p Hp.
      specialize (H1 (m_DEOJ m1)). rewrite Z1 in H1. destruct (zget (m_DEOJ m1) (ln_objs s)) as [o|] eqn:Z; [|contradiction].
      rewrite H1. exact (Y I o Z p Hp). }
    destruct (IH _ _ _ _ _ Q N C1 Ft1 F1 R) as (L & X & Y). cbn [length]. split; [congruence|]. split; [constructor; auto|exact Y].
Qed.

Lemma L_C62_survives_refuted : exists w s a d f, bytes_ok d /\ parse_bytes new_msg d = (f, Ok true) /\
  quiet w /\ reliable w /\ ln_ctl s = None /\ fitting_node s /\
  forall PS : PySet, exists s' tr', node_received w [] s (set_from (Some a) f) = (s', tr', Err AttributeError).
Proof.
  exists good_os, (lamp_node None), ("10.0.0.9"%string, 3610), [0x10; 0x81; 0; 1; 5; 0xFF; 1; 2; 0x91; 1; 0x6E; 0; 1; 0xE7; 0]. eexists.
  split; [repeat constructor; unfold byte_ok; lia|]. split; [vm_compute; reflexivity|].
  split; [exact good_quiet|]. split; [exact good_reliable|]. split; [reflexivity|]. split.
  - intros k o E. change (ln_objs (lamp_node None)) with [(0x029101, lamp)] in E. cbn [dget] in E.
    destruct (k =? 0x029101); [injection E as <-|discriminate]. split; [now left|]. split.
    + intros c p G. unfold get_property in G. cbn [o_props lamp dget] in G. destruct (Z.eqb_spec c 0x80) as [Ec|]; [injection G as <-; subst c; reflexivity|discriminate].
    + intros c p G. unfold get_property in G. cbn [o_props lamp dget] in G. destruct (Z.eqb_spec c 0x80); [injection G as <-; cbn; lia|discriminate].
  - intros PS. eexists _, _. vm_compute. reflexivity.
Qed.

(** ** C37 *)
Definition obj_keeps (f : obj -> prop -> obj * res (prop * bool)) : Prop :=
  forall o mp o' r, f o mp = (o', r) -> o_code o' = o_code o /\ o_handler o' = o_handler o.
Lemma keeps_loop f l : obj_keeps f -> forall o o' r, do_loop f o l = (o', r) -> o_code o' = o_code o /\ o_handler o' = o_handler o.
Proof.
  intros K. induction l as [|mp l IH]; intros o o' r; cbn [do_loop]; [intros [= <- <-]; auto|].
  destruct (f o mp) as [o1 [[rp acc]|e]] eqn:E; [|intros [= <- <-]; exact (K _ _ _ _ E)].
  destruct (do_loop f o1 l) as [o2 [[rps n]|e]] eqn:D; intros [= <- <-]; destruct (IH _ _ _ D), (K _ _ _ _ E); split; congruence.
Qed.
Lemma read_requested_keeps o p o' r : read_requested o p = (o', r) -> o_code o' = o_code o /\ o_handler o' = o_handler o.
Proof.
  unfold read_requested. destruct (o_handler o) eqn:H; try (destruct p); try (intros [= <- <-]; auto); try (intros [= <- <-]; split; congruence).
  all: destruct (h_read _ _ _ _) as [ps x]; intros [= <- <-]; split; [reflexivity|exact H].
Qed.
Lemma write_requested_keeps o p d o' r : write_requested o p d = (o', r) -> o_code o' = o_code o /\ o_handler o' = o_handler o.
Proof.
  unfold write_requested. destruct (o_handler o) eqn:H; try (intros [= <- <-]; auto).
  destruct (h_write _ _ _ _ _) as [ps x]; intros [= <- <-]; split; [reflexivity|exact H].
Qed.
Lemma store_keeps c d o : o_code (store c d o) = o_code o /\ o_handler (store c d o) = o_handler o.
Proof. rewrite store_frame. split; reflexivity. Qed.
Lemma do_write_keeps : obj_keeps do_write.
Proof.
  intros o mp o' r. unfold do_write. destruct (get_property _ _); [|intros [= <- <-]; auto].
  destruct (write_requested _ _ _) as [o1 [[|]|e]] eqn:W; apply write_requested_keeps in W; intros [= <- <-]; [|exact W|exact W].
  destruct (store_keeps (p_code mp) (p_data mp) o1), W. split; congruence.
Qed.
Lemma do_read_keeps : obj_keeps do_read.
Proof.
  intros o mp o' r. unfold do_read. destruct (get_property _ _); [|intros [= <- <-]; auto].
  destruct (read_requested _ _) as [o1 [[|]|e]] eqn:W; apply read_requested_keeps in W; intros [= <- <-]; exact W.
Qed.
Lemma do_read_wr_keeps : obj_keeps do_read_wr.
Proof.
  intros o mp o' r. unfold do_read_wr.
  destruct (read_requested _ _) as [o1 [[|]|e]] eqn:W; apply read_requested_keeps in W; [|intros [= <- <-]; exact W|intros [= <- <-]; exact W].
  destruct (get_property _ _); intros [= <- <-]; exact W.
Qed.
Lemma do_plain_keeps esv : obj_keeps (do_plain esv).
Proof.
  unfold do_plain. destruct (is_read_request esv); [exact do_read_keeps|]. destruct (is_write_request esv); [exact do_write_keeps|].
  intros o mp o' r [= <- <-]. auto.
Qed.
Lemma obj_step_keeps o m : o_code (obj_step o m) = o_code o /\ o_handler (obj_step o m) = o_handler o.
Proof.
  unfold obj_step. destruct (is_request (m_ESV m)) eqn:R.
  2:{ unfold obj_message_received. rewrite R. auto. }
  assert (DH : o_handler o = HNone \/ o_handler o <> HNone) by (destruct (o_handler o); [now left|right; discriminate..]).
  destruct DH as [DH|DH]; [unfold obj_message_received; rewrite R, DH; cbn; auto|].
  destruct (Z.eqb_spec (m_ESV m) 0x6E) as [E|E].
  - rewrite (received_wr o m DH E). destruct (do_loop do_write _ _) as [o1 [[ss n]|e]] eqn:D1; [|exact (keeps_loop _ _ do_write_keeps _ _ _ D1)].
    destruct (keeps_loop _ _ do_write_keeps _ _ _ D1) as (A & B).
    destruct (do_loop do_read_wr _ _) as [o2 [[gs k]|e]] eqn:D2; cbn [fst]; destruct (keeps_loop _ _ do_read_wr_keeps _ _ _ D2); split; congruence.
  - rewrite (received_plain o m DH R) by lia. destruct (do_loop _ _ _) as [o1 [[ss n]|e]] eqn:D1; exact (keeps_loop _ _ (do_plain_keeps _) _ _ _ D1).
Qed.

Lemma profile_wf p : profile_ok p -> wf_obj p.
Proof.
  intros ((_ & T) & _) c q E. specialize (T c). unfold get_property in E. rewrite E in T. destruct (last_added c np_ps); [tauto|contradiction].
Qed.
Lemma profile_step p m codes : profile_ok p -> shows codes p -> profile_ok (obj_step p m) /\ shows codes (obj_step p m).
Proof.
  intros P S. pose proof P as (T & R & M & C & H). pose proof (profile_wf p P) as Wf.
  destruct (builtin_step p m (or_introl H) Wf) as (l & W). set (p' := obj_step p m) in *.
  destruct (written_obj _ _ _ W) as (Cp & Hp). pose proof W as (_ & KK & G). split.
  - destruct T as (T1 & T2). split; [|split; [|split; [|split]]].
    + split; [rewrite KK; exact T1|]. intros x. specialize (T2 x). specialize (G x). unfold get_property in G. rewrite G.
      destruct (zget x (o_props p)) as [q|]; [|exact T2]. destruct (last_added x np_ps); [|exact T2].
      destruct (may_write _ _); [|exact T2]. destruct (last_data x l); exact T2.
    + intros x Hx. rewrite Hp in Hx. exact (R x Hx).
    + unfold has_maps in *. rewrite !Hp. exact M.
    + congruence.
    + rewrite (written_handler _ _ _ W). exact H.
  - assert (SD : forall c, In c np_codes -> get_property_data c p' = get_property_data c p).
    { intros c Hc. unfold get_property_data. change (zget c (o_props ?x)) with (get_property c x). rewrite G.
      destruct (get_property c p) as [q|] eqn:Q; [|reflexivity].
      assert (O : op_set q = 0) by (exact (profile_not_writable p c q P Hc Q)).
      unfold may_write, can_write. rewrite H, O. cbn. reflexivity. }
    unfold shows in *. rewrite !SD by (cbn; tauto). exact S.
Qed.

Lemma linv_received (PS : PySet) w tr s a m s' tr' r : received_from a m -> linv s -> node_received w tr s m = (s', tr', r) ->
  linv s' /\ dkeys (ln_objs s') = dkeys (ln_objs s) /\ open_ifs s' = open_ifs s.
Proof.
  intros Hm (LP & LW & LN & p & Zp & P & S) H.
  destruct (L_C30_addressed PS w tr s a m s' tr' r Hm H) as (evs2 & _ & O1 & DK & _ & PR & _ & GS & O2 & _ & O3).
  split; [|split; [exact DK|unfold open_ifs; rewrite GS; reflexivity]].
  assert (V : forall k o', zget k (ln_objs s') = Some o' -> exists o, zget k (ln_objs s) = Some o /\ (o' = o \/ o' = obj_step o m)).
  { intros k o' E. destruct (Z.eq_dec k (m_DEOJ m)) as [Ek|Ek]; [|rewrite (O1 k Ek) in E; eauto]. subst k.
    destruct (zget (m_DEOJ m) (ln_objs s)) as [o|] eqn:Z.
    - destruct (O2 o eq_refl) as ([A|A] & _); rewrite A in E; injection E as <-; eauto.
    - destruct (O3 eq_refl) as (_ & ES & _). rewrite ES in E. change (ln_objs (set_ln_ctl ?x s)) with (ln_objs s) in E. congruence. }
  split; [congruence|]. split; [|split; [rewrite DK; exact LN|]].
  - intros k o' I. apply (in_dget Z.eqb zeqb_eq) in I; [|rewrite DK; exact LN]. destruct (V k o' I) as (o & Z & X).
    assert (o_code o = k) as K by (apply LW; apply (dget_in Z.eqb zeqb_eq); exact Z).
    destruct X as [->| ->]; [exact K|]. rewrite (proj1 (obj_step_keeps o m)). exact K.
  - rewrite DK. destruct (zget NP (ln_objs s')) as [p'|] eqn:Zp'.
    + destruct (V NP p' Zp') as (o & Z & X). assert (o = p) by congruence. subst o. exists p'. split; [reflexivity|].
      destruct X as [->| ->]; [auto|]. now apply profile_step.
    + apply (dget_none Z.eqb zeqb_eq) in Zp'. rewrite DK in Zp'. exfalso. apply Zp'. apply (dget_some Z.eqb zeqb_eq). eauto.
Qed.

Lemma linv_received_all (PS : PySet) w ms : forall tr s s' tr' rs, linv s -> Forall (fun m => exists a, received_from a m) ms ->
  received_all w tr s ms = (s', tr', rs) -> linv s' /\ dkeys (ln_objs s') = dkeys (ln_objs s) /\ open_ifs s' = open_ifs s.
Proof.
  induction ms as [|m ms IH]; intros tr s s' tr' rs L F; cbn [received_all].
  - intros [= <- <- <-]. auto.
  - destruct (node_received w tr s m) as [[s1 tr1] r] eqn:E. destruct (received_all w tr1 s1 ms) as [[s2 tr2] rs2] eqn:R.
    intros [= <- <- <-]. destruct (Forall_inv F) as (a & Hm).
    destruct (linv_received PS w tr s a m s1 tr1 r Hm L E) as (L1 & D1 & O1).
    destruct (IH _ _ _ _ _ L1 (Forall_inv_tail F) R) as (L2 & D2 & O2). split; [exact L2|]. split; congruence.
Qed.

Lemma start_keeps w tr s l s' tr' r : local_start w tr s l = (s', tr', r) ->
  ln_objs s' = ln_objs s /\ ln_prof s' = ln_prof s /\ ln_ctl s' = ln_ctl s /\ ln_opts s' = ln_opts s.
Proof.
  unfold local_start. destruct (mgr_start _ _ _ _) as [[g tr1] [[|]|e]]; intros [= <- <- <-]; repeat split.
Qed.
Lemma linv_objs s s' : ln_objs s' = ln_objs s -> ln_prof s' = ln_prof s -> linv s -> linv s'.
Proof. unfold linv, lwf. intros -> ->. auto. Qed.

Lemma ifs_running o l : map s_if (filter (fun v => s_uni v && s_open v)
    (flat_map (fun i => [mksrv true i true true o; mksrv false i true true o]) l)) = l.
Proof. induction l as [|i l IH]; [reflexivity|]. cbn. rewrite IH. reflexivity. Qed.
Lemma started_ifs w tr s l s' tr' : local_start w tr s l = (s', tr', Ok true) ->
  exists i ifs, open_ifs s' = i :: ifs.
Proof.
  intros H. destruct (L_C44_start _ _ _ _ _ _ H) as (_ & R & i & rest & E & _). exists i, rest. unfold open_ifs. rewrite R, ifs_running. exact E.
Qed.

(** A node ready to answer: its codes are listed by its profile. *)
Definition ready (codes : list Z) (s : lnode) : Prop :=
  linv s /\ dkeys (ln_objs s) = codes /\ exists i ifs, open_ifs s = i :: ifs.

(** The answer to the search request of a controller. *)
Definition is_search (m : msg) : Prop := m_ESV m = 0x62 /\ m_DEOJ m = 0x0EF001 /\ m_props m = [mkprop 0xD6 []].

Lemma search_step a m p : profile_ok p -> received_from a m -> is_search m -> forall d, get_property_data 0xD6 p = Some d ->
  obj_message_received p m = (p, o_obs p, Ok (Some (mkmsg (m_TID m) (m_DEOJ m) (m_SEOJ m) 0x72 [mkprop 0xD6 d] [] [] None None))).
Proof.
  intros P Hm (E & DE & PR) d D. pose proof P as (_ & _ & _ & _ & H). destruct (received_props a m Hm) as (PL & _).
  rewrite (L_C20_builtin_read p m (or_introl H) (profile_wf p P) PL E), PR.
  assert (R : read_answer p (mkprop 0xD6 []) = (d, true)).
  { unfold read_answer. cbn [p_code]. unfold get_property_data in D. change (zget 0xD6 (o_props p)) with (get_property 0xD6 p) in D.
    destruct (get_property 0xD6 p) as [q|] eqn:Q; [|discriminate]. injection D as <-.
    rewrite (profile_readable p 0xD6 q P); [reflexivity|cbn; tauto|exact Q]. }
  unfold all_accepted, answers. cbn [forallb map p_code]. rewrite R. reflexivity.
Qed.

Lemma be3_length l : zlen (flat_map (be 3) l) = 3 * zlen l.
Proof. induction l as [|x l IH]; [reflexivity|]. cbn [flat_map]. unfold zlen in *. rewrite app_length. change (length (be 3 x)) with 3%nat. cbn [length]. lia. Qed.

Lemma search_answer (PS : PySet) w tr s a m codes s' tr' r : quiet w -> reliable w -> ready codes s ->
  received_from a m -> is_search m -> node_received w tr s m = (s', tr', r) ->
  let l := device_codes codes in
  exists evs, tr' = tr ++ evs /\
  (zlen l <= 84 -> exists i b n rsp, bytes_ok b /\ sent evs = [(i, b, a, Ok n)] /\ r = Ok tt /\ parse_bytes new_msg b = (rsp, Ok true) /\
     m_ESV rsp = 0x72 /\ m_SEOJ rsp = 0x0EF001 /\ m_DEOJ rsp = m_SEOJ m /\ (m_TID m <> 0 -> m_TID rsp = m_TID m) /\
     m_props rsp = [mkprop 0xD6 (zlen l :: flat_map (be 3) l)]) /\
  (85 <= zlen l -> sent evs = [] /\ r = Err ValueError).
Proof.
  intros Q R (L & DK & i & ifs & OI) Hm S H l.
  destruct L as (_ & _ & _ & p & Zp & P & SH). rewrite DK in SH.
  destruct SH as (_ & _ & D6 & _). fold l in D6.
  pose proof (search_step a m p P Hm S _ D6) as O. set (rsp := mkmsg _ _ _ _ _ _ _ _ _) in O.
  assert (Z : zget (m_DEOJ m) (ln_objs s) = Some p) by (rewrite (proj1 (proj2 S)); exact Zp).
  destruct (node_sends PS w tr s a m s' tr' r Hm H) as (evs & -> & F & _ & A1 & _). exists evs. split; [reflexivity|].
  destruct (A1 Q p _ _ rsp Z O) as (A2 & A3). split; intros Hl.
  - assert (BL : be 1 (zlen l) ++ flat_map (be 3) l = zlen l :: flat_map (be 3) l).
    { rewrite be1. pose proof (zlen_nonneg l). rewrite Z.mod_small by lia. reflexivity. }
    assert (EN : encodable rsp).
    { unfold encodable. cbn [rsp m_ESV m_props]. change (two_blocks 0x72) with false. cbn iota. split; [unfold byte_ok; lia|]. split; [unfold zlen; cbn [length]; lia|]. constructor; [|constructor]. split; cbn [p_code p_data]; [unfold byte_ok; lia|].
      rewrite BL. unfold zlen. cbn [length]. pose proof (be3_length l). unfold zlen in *. lia. }
    destruct (A2 EN) as (b & ST & M & AR).
    assert (NE : b <> []) by (destruct ST as (g & t & _ & ->); apply wire_nonempty).
    unfold by_mode in M. cbn [m_ESV rsp] in M. change (0x72 =? 0x73) with false in M. cbn iota in M.
    pose proof (tries_reliable w _ _ _ _ NE R M F) as T. rewrite OI in T. destruct T as (n & T & _).
    assert (RO : r = Ok tt).
    { destruct r as [[]|e]; [reflexivity|]. exfalso. rewrite T in AR. destruct AR as (x & [<-|[]] & X). discriminate. }
    destruct (stamp_fields _ _ _ _ ST) as (t & EB & TE).
    assert (SO : source s rsp = 0x0EF001) by (unfold source; cbn [m_SEOJ rsp]; destruct (ln_ctl s); [reflexivity|apply S]).
    rewrite SO in EB. destruct Hm as (f & (_ & _ & CF) & Em).
    assert (BO : bytes_ok b).
    { rewrite EB. apply wire_bytes_ok; [exact EN|]. cbn [typed m_props m_sets m_gets rsp]. split; [|split; constructor]. constructor; [|constructor].
      unfold data_ok. cbn [p_data]. unfold bytes_ok. apply Forall_app. split; [apply be_ok|].
      clear. induction l as [|x l IH]; [constructor|]. cbn [flat_map]. apply Forall_app. split; [apply be_ok|exact IH]. }
    exists i, b, n. rewrite EB, <- (app_nil_r (wire _)), parse_wire, overlay_new. eexists. rewrite T, EB, app_nil_r. split; [rewrite <- EB; exact BO|]. split; [reflexivity|]. split; [exact RO|].
    split; [reflexivity|]. cbn [m_ESV m_SEOJ m_DEOJ m_TID m_props carried rsp]. split; [reflexivity|]. split; [reflexivity|].
    assert (M1 : m_SEOJ m mod 2 ^ 24 = m_SEOJ m) by (rewrite Em; cbn [m_SEOJ set_from]; rewrite <- CF at 2; reflexivity).
    assert (M2 : m_TID m mod 2 ^ 16 = m_TID m) by (rewrite Em; cbn [m_TID set_from]; rewrite <- CF at 2; reflexivity).
    split; [exact M1|]. split; [intros N; rewrite (TE N); exact M2|]. change (two_blocks 0x72) with false. cbn iota. rewrite BL. reflexivity.
  - assert (EN : ~ encodable rsp).
    { intros (_ & X). cbn [rsp m_ESV m_props] in X. change (two_blocks 0x72) with false in X. cbn iota in X. destruct X as (_ & X). apply Forall_inv in X. destruct X as (_ & X). cbn [p_data] in X.
      rewrite be1 in X. unfold zlen in X. cbn [length app] in X. pose proof (be3_length l). unfold zlen in *. lia. }
    rewrite OI in A3. exact (A3 EN).
Qed.

Lemma ready_history (PS : PySet) c r s0 ops w tr0 l0 s1 tr1 ms s2 tr2 rs :
  new_local c r = (s0, Ok tt) -> no_profile ops -> let s := fst (local_adds ops s0) in
  local_start w tr0 s l0 = (s1, tr1, Ok true) ->
  Forall (fun m => exists a, received_from a m) ms -> received_all w tr1 s1 ms = (s2, tr2, rs) ->
  ready (node_codes s) s2.
Proof.
  intros N P s ST F R. destruct (node_after_adds c r ops s0 N P) as (L & _). fold s in L.
  destruct (start_keeps _ _ _ _ _ _ _ ST) as (K1 & K2 & _). pose proof (linv_objs s s1 K1 K2 L) as L1.
  destruct (linv_received_all PS w ms tr1 s1 s2 tr2 rs L1 F R) as (L2 & D2 & O2).
  split; [exact L2|]. split.
  - rewrite D2, K1. symmetry. apply lwf_codes. apply L.
  - rewrite O2. exact (started_ifs _ _ _ _ _ _ ST).
Qed.

Lemma L_C37_discoverable_partial : forall (PS : PySet) c r s0 ops w tr0 l0 s1 tr1 ms s2 tr2 rs a m s3 tr3 x,
  new_local c r = (s0, Ok tt) -> no_profile ops ->
  let s := fst (local_adds ops s0) in let l := device_codes (node_codes s) in
  zlen l <= 84 ->
  local_start w tr0 s l0 = (s1, tr1, Ok true) ->
  Forall (fun m => exists a, received_from a m) ms -> received_all w tr1 s1 ms = (s2, tr2, rs) ->
  quiet w -> reliable w -> received_from a m ->
  m_ESV m = 0x62 -> m_DEOJ m = 0x0EF001 -> m_props m = [mkprop 0xD6 []] ->
  node_received w tr2 s2 m = (s3, tr3, x) ->
  exists evs i b n rsp, tr3 = tr2 ++ evs /\ sent evs = [(i, b, a, Ok n)] /\ x = Ok tt /\
    parse_bytes new_msg b = (rsp, Ok true) /\
    m_ESV rsp = 0x72 /\ m_SEOJ rsp = 0x0EF001 /\ m_DEOJ rsp = m_SEOJ m /\ (m_TID m <> 0 -> m_TID rsp = m_TID m) /\
    m_props rsp = [mkprop 0xD6 (zlen l :: flat_map (be 3) l)].
Proof.
  intros PS c r s0 ops w tr0 l0 s1 tr1 ms s2 tr2 rs a m s3 tr3 x N P s l Hl ST F R Q Rl Hm E1 E2 E3 H.
  pose proof (ready_history PS c r s0 ops w tr0 l0 s1 tr1 ms s2 tr2 rs N P ST F R) as RD.
  destruct (search_answer PS w tr2 s2 a m _ s3 tr3 x Q Rl RD Hm (conj E1 (conj E2 E3)) H) as (evs & -> & A & _).
  destruct (A Hl) as (i & b & n & rsp & _ & X). exists evs, i, b, n, rsp. split; [reflexivity|exact X].
Qed.

(** With 85 objects or more the answer does not fit a property: nothing is sent. *)
Lemma L_C37_discoverable_refuted : forall (PS : PySet) c r s0, new_local c r = (s0, Ok tt) ->
  (exists ops, no_profile ops /\ zlen (device_codes (node_codes (fst (local_adds ops s0)))) = 85) /\
  forall ops w tr0 l0 s1 tr1 a m s2 tr2 x, no_profile ops ->
  85 <= zlen (device_codes (node_codes (fst (local_adds ops s0)))) ->
  local_start w tr0 (fst (local_adds ops s0)) l0 = (s1, tr1, Ok true) ->
  quiet w -> reliable w -> received_from a m ->
  m_ESV m = 0x62 -> m_DEOJ m = 0x0EF001 -> m_props m = [mkprop 0xD6 []] ->
  node_received w tr1 s1 m = (s2, tr2, x) ->
  exists evs, tr2 = tr1 ++ evs /\ sent evs = [] /\ x = Err ValueError.
Proof.
  intros PS c r s0 N. split.
  - exists (many 85). split; [apply many_no_profile; lia|].
    destruct (node_after_adds c r (many 85) s0 N) as (_ & _ & D & _); [apply many_no_profile; lia|].
    rewrite D, many_firsts, many_devices by lia. apply many_zlen.
  - intros ops w tr0 l0 s1 tr1 a m s2 tr2 x P Hl ST Q Rl Hm E1 E2 E3 H.
    pose proof (ready_history PS c r s0 ops w tr0 l0 s1 tr1 [] s1 tr1 [] N P ST (Forall_nil _) eq_refl) as RD.
    destruct (search_answer PS w tr1 s1 a m _ s2 tr2 x Q Rl RD Hm (conj E1 (conj E2 E3)) H) as (evs & -> & _ & A).
    destruct (A Hl) as (A1 & A2). exists evs. auto.
Qed.
