(** Lemmas for C81. *)
From Verif Require Import PyBase BytesM EsvM MsgM PropM ObjM DbData DbM NodeM LocalM CtrlM BenchM
  SpecWire SpecObj SpecReq SpecDb SpecNode SpecProf SpecLocal SpecSrv SpecCtrl SpecEnd SpecSess SpecBench DictP BytesP WireP CodecP ObjP MapP ReqP DbP NodeP ProfP LocalP AnswerP SrvP CtrlP EndP SessP.
From Verif Require Import SpecReq.
Require Import ZifyBool.

(** ** The controller sends *)
Lemma ctl_sends wc tr sc jc ac an d m c : quiet wc -> reliable wc -> dest_addr d = Some an -> online sc jc -> ln_ctl sc = Some c ->
  0 <= g_tid (ln_mgr sc) <= 65535 -> m_TID m = 0 -> encodable m ->
  exists m' tc, ctl_send wc tr sc m d = (set_ln_mgr (mkmgr (next_tid sc) (g_servers (ln_mgr sc))) sc, tc, m', Ok true) /\
  m_TID m' = next_tid sc /\ reach an (since tr tc) = [wire (as_received sc ac m)].
Proof.
  intros Qc Rc Da Oc C Tc T0 Em. set (t := next_tid sc). set (q := as_received sc ac m).
  destruct (local_send wc tr sc m (Some an)) as [[[c1 tc1] m1] r1] eqn:LS.
  destruct (local_send_ok wc tr sc m an) as (g' & t' & St & Gs & K & _). destruct (K Em) as (snds & m' & r & E & (Tri & Fo) & Re). clear K.
  rewrite LS in E. injection E as -> -> -> ->.
  unfold stamped in St. rewrite T0 in St. cbn [Z.eqb] in St. rewrite next_tid_spec in St by exact Tc. change (g_tid (ln_mgr sc) mod 65535 + 1) with t in St.
  assert (g' = mkmgr t (g_servers (ln_mgr sc)) /\ t' = t) as (-> & ->) by (split; congruence). clear St.
  assert (Wq : wire (set_TID t (set_SEOJ (source sc m) m)) = wire q).
  { unfold source. rewrite C. subst q t. destruct m. reflexivity. }
  rewrite Wq in Tri.
  pose proof (tries_reliable wc _ _ _ _ (wire_nonempty q) Rc Tri Fo) as TR. destruct (open_ifs sc) as [|i ifs] eqn:Oi; [exfalso; apply (proj1 Oc); exact Oi|].
  destruct TR as (n & -> & Np).
  assert (r = Ok true) as ->.
  { destruct r as [b|e].
    - destruct Re as (_ & Re). f_equal. apply Re. exists (i, wire q, an, Ok n). split; [now left|]. unfold delivered. cbn [snd]. lia.
    - exfalso. destruct Re as (y & [<-|[]] & Y). discriminate. }
  pose proof (local_send_tid wc tr sc m (Some an) _ _ _ _ T0 LS) as Tm. cbn [ln_mgr set_ln_mgr g_tid] in Tm.
  exists m', (tr ++ map ev_of [(i, wire q, an, Ok n)]). split; [|split; [exact Tm|]].
  - unfold ctl_send. rewrite Da, LS. reflexivity.
  - rewrite since_app. apply (reach_one an _ i (wire q) n (sent_evs _) Np).
Qed.

(** ** The device answers a read *)
Definition read_reply (tid code : Z) (t : table) (k : Z) : msg :=
  mkmsg tid code 0x0EF001 (if readable t k then 0x72 else 0x52) [show t k] [] [] None None.
Lemma reply_read t k : reply t (KRead [k]) = Some (if readable t k then 0x72 else 0x52, [show t k], [], []).
Proof. cbn [reply forallb map]. rewrite andb_true_r. reflexivity. Qed.

Lemma dev_reads (PS : PySet) wd tr sd jd ac sc S code k : quiet wd -> reliable wd -> online sd jd -> ln_ctl sd = None ->
  mirrors sd S -> store_ok S -> call_ok S code (KRead [k]) ->
  exists sd' td, arrive wd tr sd jd ac [wire (as_received sc ac (request code (KRead [k])))] = (sd', td) /\
  online sd' jd /\ ln_ctl sd' = None /\ mirrors sd' S /\
  reach ac (since tr td) = match S code with Some t => [wire (read_reply (next_tid sc) code t k)] | None => [] end.
Proof.
  intros Qd Rd Od Cd M So (Co & En & D1 & D2 & Le & Cr).
  pose proof (request_frame sc ac code (KRead [k]) Co En D1 D2) as Fq. pose proof (next_tid_range sc) as Ti.
  set (q := as_received sc ac (request code (KRead [k]))) in *.
  assert (Lq : (length (wire q) <= 1024)%nat) by (rewrite wire_len in *; exact Le).
  assert (Hq : received_from ac q) by (exists (set_from None q); split; [exact Fq|reflexivity]).
  destruct (node_received wd tr sd q) as [[sd1 td1] rd] eqn:NR.
  destruct (node_received_spec wd tr sd ac q Hq) as (s2 & evs & r2 & E2 & LSp & _). rewrite NR in E2. injection E2 as <- -> <-.
  specialize (LSp (or_introl Cd)). unfold local_spec in LSp. change (m_DEOJ q) with code in LSp.
  pose proof (M code) as Mc. destruct (S code) as [t|] eqn:Sc.
  - destruct (zget code (ln_objs sd)) as [o|] eqn:Zo; [|contradiction]. destruct Cr as (Ra & _).
    assert (To : table_ok t) by (intros c l; exact (So code t c l Sc)).
    destruct (obj_call sc ac code o t (KRead [k]) Mc Logic.I) as (o' & Ob & H').
    rewrite reply_read in Ra, Ob. cbn [option_map answer_msg] in Ob. change (mkmsg (next_tid sc) code 0x0EF001 (if readable t k then 0x72 else 0x52) [show t k] [] [] None None) with (read_reply (next_tid sc) code t k) in Ob.
    destruct (reply_frame (next_tid sc) code t (KRead [k]) _ _ _ _ Ti Co To (reply_read t k) En D1 D2) as (Fr & N73).
    set (rsp := read_reply (next_tid sc) code t k) in *. change (frame_msg rsp) in Fr. change (m_ESV rsp <> 0x73) in N73.
    destruct LSp as (oe & snds2 & -> & Foe & [(_ & _ & NQ & _)|LSp]); [contradiction|]. fold q in Ob. rewrite Ob in LSp. destruct LSp as (_ & g2 & -> & G2 & t2 & St2 & LSp).
    destruct LSp as [(_ & Tri2 & Fo2 & AR)|(NE & _)]; [|exfalso; apply NE; apply Fr].
    unfold stamped in St2. change (m_TID q) with (next_tid sc) in St2.
    assert (Tr : 0 < next_tid sc) by (unfold next_tid; pose proof (Z.mod_pos_bound (g_tid (ln_mgr sc)) 65535); lia).
    replace (next_tid sc =? 0) with false in St2 by lia. destruct St2 as (-> & ->).
    replace (m_ESV rsp =? 0x73) with false in Tri2 by lia. cbv zeta in Tri2.
    assert (Wr : wire (set_TID (next_tid sc) (set_SEOJ (source sd rsp) rsp)) = wire rsp) by (unfold source; rewrite Cd; reflexivity).
    rewrite Wr in Tri2. pose proof (tries_reliable wd _ _ _ _ (wire_nonempty rsp) Rd Tri2 Fo2) as TR.
    destruct (open_ifs sd) as [|i2 ifs2] eqn:Oi2; [exfalso; apply (proj1 Od); exact Oi2|]. destruct TR as (n2 & -> & Np2).
    assert (rd = Ok tt) as ->.
    { destruct rd as [[]|e]; [reflexivity|]. exfalso. destruct AR as (y & [<-|[]] & Y). discriminate. }
    exists (set_ln_mgr (ln_mgr sd) (put_obj code o' sd)), (tr ++ oe ++ map ev_of [(i2, wire rsp, ac, Ok n2)]).
    split; [change (wire q) with (wire (set_from None q)); apply arrive_one; [exact Od|exact Fq|exact Lq|exact NR]|].
    split; [exact Od|]. split; [exact Cd|]. split.
    + intros i. change (ln_objs (set_ln_mgr (ln_mgr sd) (put_obj code o' sd))) with (ln_objs (put_obj code o' sd)). rewrite zget_put.
      destruct (Z.eqb_spec i code) as [->|Ni]; [rewrite Sc; exact H'|exact (M i)].
    + rewrite since_app. apply (reach_one ac _ i2 (wire rsp) n2); [rewrite sent_app, (obj_events_sent _ _ _ Foe), sent_evs; reflexivity|exact Np2].
  - destruct (zget code (ln_objs sd)) as [o|] eqn:Zo; [contradiction|]. destruct LSp as (-> & -> & ->).
    exists sd, (tr ++ []). split; [change (wire q) with (wire (set_from None q)); apply arrive_one; [exact Od|exact Fq|exact Lq|exact NR]|].
    split; [exact Od|]. split; [exact Cd|]. split; [exact M|]. rewrite since_app. reflexivity.
Qed.

(** ** The answer arrives at the controller *)
Lemma ctl_gets (PS : PySet) wc tr sc jc an rsp c nd : quiet wc -> online sc jc -> ln_ctl sc = Some c -> sget (fst an) (c_found c) = Some nd ->
  frame_msg rsp -> (length (wire rsp) <= 1024)%nat -> m_ESV rsp = 0x72 \/ m_ESV rsp = 0x52 -> m_DEOJ rsp = 0x0EF001 -> (m_ESV rsp = 0x72 -> empty_list rsp = false) ->
  exists c' nd' tc, arrive wc tr sc jc an [wire rsp] = (set_ln_ctl (Some c') sc, tc) /\ sget (fst an) (c_found c') = Some nd' /\
  c_req c' = c_req c /\ c_resp c' = c_resp (post_step (set_from (Some an) rsp) c).
Proof.
  intros Qc Oc C Nd Fr Lr Es Dj El. set (m2 := set_from (Some an) rsp).
  assert (Hr : received_from an m2) by (exists rsp; split; [exact Fr|reflexivity]).
  assert (NRq : is_request (m_ESV m2) = false) by (change (m_ESV m2) with (m_ESV rsp); destruct Es as [-> | ->]; reflexivity).
  destruct (node_received wc tr sc m2) as [[sc2 tc2] rc] eqn:NC.
  destruct (step_of PS wc tr sc c an m2 sc2 tc2 rc Qc C Hr NC) as (c2 & C2 & _ & CR). specialize (CR NRq).
  pose proof (ctl_node_received PS wc tr sc c an m2 sc2 tc2 rc C Hr NC) as CN. rewrite NRq in CN. destruct CN as (c3 & CR3 & Es2).
  assert (c3 = c2) by congruence. subst c3. clear CR3.
  rewrite (ctl_response_eq wc tr c an m2 Qc Hr NRq) in CR.
  change (m_DEOJ m2) with (m_DEOJ rsp) in CR. rewrite Dj in CR. change (negb (0x0EF001 =? 0x0EF001)) with false in CR. rewrite andb_false_r in CR.
  assert (El2 : from_profile m2 && empty_list m2 = false).
  { destruct (from_profile m2) eqn:FP; [|reflexivity]. apply from_profile_iff in FP. change (m_ESV m2) with (m_ESV rsp) in FP. change (empty_list m2) with (empty_list rsp). rewrite El; [reflexivity|]. lia. }
  rewrite El2 in CR. cbv zeta in CR.
  assert (Fnd : exists n1, sget (fst an) (c_found (announce_found an m2 c)) = Some n1).
  { unfold announce_found. destruct (announces m2); [|exists nd; exact Nd]. cbn [c_found set_found]. rewrite (dget_dset String.eqb seqb_eq), String.eqb_refl. eauto. }
  destruct Fnd as (n1 & Fnd).
  assert (P : forall cc, c_req cc = c_req c -> c_resp cc = c_resp c -> c_req (post_step m2 cc) = c_req c /\ c_resp (post_step m2 cc) = c_resp (post_step m2 c)).
  { intros cc H1 H2. unfold post_step. rewrite H1, H2. destruct (c_req c) as [r|] eqn:Q; [|split; congruence]. destruct (c_resp c) eqn:Q2; [split; congruence|]. destruct (m_TID r =? m_TID m2); [|split; congruence]. split; reflexivity. }
  assert (AF : c_req (announce_found an m2 c) = c_req c /\ c_resp (announce_found an m2 c) = c_resp c) by (unfold announce_found; destruct (announces m2); split; reflexivity).
  assert (Fin : rc = Ok tt /\ c_req c2 = c_req c /\ c_resp c2 = c_resp (post_step m2 c) /\ exists n3, sget (fst an) (c_found c2) = Some n3).
  { destruct (from_profile m2 || (m_ESV m2 =? 0x7E)).
    - rewrite Fnd in CR. assert (c2 = post_step m2 (set_found (sset (fst an) (rec_node m2 n1) (c_found (announce_found an m2 c))) (announce_found an m2 c)) /\ rc = Ok tt) as (-> & ->) by (split; congruence).
      split; [reflexivity|]. split; [apply P; apply AF|]. split; [apply P; apply AF|]. rewrite post_found. cbn [c_found set_found]. rewrite (dget_dset String.eqb seqb_eq), String.eqb_refl. eauto.
    - assert (c2 = post_step m2 (announce_found an m2 c) /\ rc = Ok tt) as (-> & ->) by (split; congruence).
      split; [reflexivity|]. split; [apply P; apply AF|]. split; [apply P; apply AF|]. rewrite post_found. eauto. }
  destruct Fin as (-> & Rq & Rs & n3 & N3). exists c2, n3, tc2. rewrite <- Es2. split; [|auto].
  exact (arrive_one PS wc tr sc jc an rsp sc2 tc2 Oc Fr Lr NC).
Qed.
Lemma arrive_app (PS : PySet) w tr s j a l1 l2 : arrive w tr s j a (l1 ++ l2) = let '(s1, tr1) := arrive w tr s j a l1 in arrive w tr1 s1 j a l2.
Proof.
  unfold arrive. rewrite map_app. revert tr s. induction (map (fun b => (j, (b, a))) l1) as [|[i d] l IH]; intros tr s; [reflexivity|].
  cbn [app run]. destruct (deliver w tr s i d). apply IH.
Qed.

(** ** One property *)
Lemma next_next sc s : g_tid (ln_mgr s) = next_tid sc -> next_tid s <> next_tid sc.
Proof.
  unfold next_tid. intros ->. pose proof (Z.mod_pos_bound (g_tid (ln_mgr sc)) 65535 eq_refl) as B. set (a := _ mod 65535) in *. clearbody a. intros E.
  assert (E2 : (a + 1) mod 65535 = a) by lia. destruct (Z.eq_dec a 65534) as [->|N]; [discriminate|]. rewrite Z.mod_small in E2 by lia. lia.
Qed.
Definition answers_on_wire (S : store) (tid code k : Z) : list (list Z) :=
  match S code with Some t => [wire (read_reply tid code t k)] | None => [] end.
Definition resp_after (S : store) (tid code k : Z) (an : addr) (c : ctl) : option msg :=
  match S code with Some t => c_resp (post_step (set_from (Some an) (read_reply tid code t k)) c) | None => c_resp c end.
Lemma set_ctl_same s c : ln_ctl s = Some c -> set_ln_ctl (Some c) s = s.
Proof. destruct s. cbn. intros ->. reflexivity. Qed.
Lemma online_ctl s j c : online s j -> online (set_ln_ctl c s) j. Proof. intros H; exact H. Qed.

Lemma ctl_answers (PS : PySet) wc tr sc jc an c nd S tid code k : quiet wc -> online sc jc -> ln_ctl sc = Some c -> sget (fst an) (c_found c) = Some nd ->
  0 <= tid < 2 ^ 16 -> store_ok S -> call_ok S code (KRead [k]) ->
  exists c' nd' tc, arrive wc tr sc jc an (answers_on_wire S tid code k) = (set_ln_ctl (Some c') sc, tc) /\ sget (fst an) (c_found c') = Some nd' /\
  c_req c' = c_req c /\ c_resp c' = resp_after S tid code k an c.
Proof.
  intros Qc Oc C Nd Ti So (Co & En & D1 & D2 & Le & Cr). unfold answers_on_wire, resp_after. destruct (S code) as [t|] eqn:Sc.
  - assert (To : table_ok t) by (intros c0 l; exact (So code t c0 l Sc)). destruct Cr as (Ra & _). rewrite reply_read in Ra.
    destruct (reply_frame tid code t (KRead [k]) _ _ _ _ Ti Co To (reply_read t k) En D1 D2) as (Fr & _). destruct Ra as (La & Ea).
    apply (ctl_gets PS wc tr sc jc an (read_reply tid code t k) c nd Qc Oc C Nd Fr).
    + rewrite wire_len in *. exact La.
    + cbn [read_reply m_ESV]. destruct (readable t k); auto.
    + reflexivity.
    + exact Ea.
  - exists c, nd, tr. rewrite set_ctl_same by exact C. cbn. auto.
Qed.
Lemma resp_new S tid code k an c r : c_req c = Some r -> c_resp c = None -> m_TID r = tid ->
  resp_after S tid code k an c = match S code with Some t => Some (set_from (Some an) (read_reply tid code t k)) | None => None end.
Proof.
  intros A B T. unfold resp_after. destruct (S code) as [t|]; [|exact B]. unfold post_step. rewrite A, B. cbn [set_from read_reply m_TID]. rewrite T, Z.eqb_refl. reflexivity.
Qed.
Lemma resp_old S tid code k an c r : c_req c = Some r -> m_TID r <> tid -> resp_after S tid code k an c = c_resp c.
Proof.
  intros A T. unfold resp_after. destruct (S code) as [t|]; [|reflexivity]. unfold post_step. rewrite A. destruct (c_resp c) eqn:B; [rewrite B; reflexivity|]. cbn [set_from read_reply m_TID].
  replace (m_TID r =? tid) with false by lia. exact B.
Qed.
Lemma resp_kept S tid code k an c a : c_resp c = Some a -> resp_after S tid code k an c = Some a.
Proof. intros A. unfold resp_after. destruct (S code) as [t|]; [|exact A]. unfold post_step. rewrite A. destruct (c_req c); exact A. Qed.

Lemma one_read (PS : PySet) wc wd jc jd ac an n o p z x S :
  quiet wc -> reliable wc -> quiet wd -> reliable wd -> dest_addr (DNode n) = Some an -> joined jc jd an x ->
  mirrors (x_dev x) S -> store_ok S -> call_ok S (o_code o) (KRead [op_code p]) ->
  exists x', tool_read wc wd jc jd ac an n o p z x = (x', Ok (on_screen S (o_code o) (op_code p))) /\
  joined jc jd an x' /\ mirrors (x_dev x') S.
Proof.
  intros Qc Rc Qd Rd Da (Oc & (c & nd & C & Nd) & Tc & Od & Cd) M So Ck.
  pose proof Ck as (Co & En & D1 & D2 & Le & Cr).
  set (code := o_code o) in *. set (k := op_code p) in *. set (m := request code (KRead [k])) in *.
  unfold tool_read, property_send, object_send. change (create_message (o_code o) 0x62 (LList [PPair (op_code p) []])) with (Some m).
  destruct (ctl_sends wc (x_ctr x) (x_ctl x) jc ac an (DNode n) m c Qc Rc Da Oc C Tc eq_refl En) as (m1 & tc1 & E1 & T1 & R1). rewrite E1, R1. clear E1 R1.
  set (c1 := set_ln_mgr _ (x_ctl x)). assert (Oc1 : online c1 jc) by exact Oc. assert (C1 : ln_ctl c1 = Some c) by exact C.
  assert (G1 : g_tid (ln_mgr c1) = next_tid (x_ctl x)) by reflexivity. pose proof (next_tid_range (x_ctl x)) as Ti.
  clearbody c1.
  destruct (dev_reads PS wd (x_dtr x) (x_dev x) jd ac (x_ctl x) S code k Qd Rd Od Cd M So Ck) as (d1 & td1 & A1 & Od1 & Cd1 & M1 & Re1). fold m in A1. rewrite A1, Re1. clear A1 Re1.
  set (t1 := next_tid (x_ctl x)) in *. fold (answers_on_wire S t1 code k).
  assert (Ph : exists c2 k2 n2 tc2, arrive wc tc1 c1 jc an (match z with Early => answers_on_wire S t1 code k | _ => [] end) = (c2, tc2) /\
    online c2 jc /\ ln_ctl c2 = Some k2 /\ sget (fst an) (c_found k2) = Some n2 /\ g_tid (ln_mgr c2) = t1).
  { destruct z.
    - destruct (ctl_answers PS wc tc1 c1 jc an c nd S t1 code k Qc Oc1 C1 Nd Ti So Ck) as (c' & nd' & tc & A & B & _). do 4 eexists. split; [exact A|]. split; [exact Oc1|]. split; [reflexivity|]. split; [exact B|exact G1].
    - do 4 eexists. split; [reflexivity|]. split; [exact Oc1|]. split; [exact C1|]. split; [exact Nd|exact G1].
    - do 4 eexists. split; [reflexivity|]. split; [exact Oc1|]. split; [exact C1|]. split; [exact Nd|exact G1]. }
  destruct Ph as (c2 & k2 & n2 & tc2 & A2 & Oc2 & C2 & Nd2 & G2). rewrite A2. clear A2 C1 Oc1 G1 Oc C Nd.
  unfold property_post, object_post. change (create_message (o_code o) 0x62 (LList [PPair (op_code p) []])) with (Some m).
  unfold post_begin. rewrite C2.
  assert (Tc2 : 0 <= g_tid (ln_mgr c2) <= 65535) by (rewrite G2; lia). pose proof (next_next (x_ctl x) c2 G2) as Nt.
  destruct (ctl_sends wc tc2 c2 jc ac an (DNode n) m k2 Qc Rc Da Oc2 C2 Tc2 eq_refl En) as (m3 & tc3 & E3 & T3 & R3). rewrite E3, R3. clear E3 R3.
  set (t2 := next_tid c2) in *. pose proof (next_tid_range c2) as Ti2. fold t2 in Ti2.
  set (k3 := set_post (Some m3) None k2). set (c3 := set_ln_ctl _ _). assert (Oc3 : online c3 jc) by exact Oc2. assert (C3 : ln_ctl c3 = Some k3) by reflexivity. assert (G3 : g_tid (ln_mgr c3) = t2) by reflexivity.
  assert (Nd3 : sget (fst an) (c_found k3) = Some n2) by exact Nd2. assert (Q3 : c_req k3 = Some m3) by reflexivity. assert (P3 : c_resp k3 = None) by reflexivity. clearbody c3 k3.
  destruct (dev_reads PS wd td1 d1 jd ac c2 S code k Qd Rd Od1 Cd1 M1 So Ck) as (d2 & td2 & A4 & Od2 & Cd2 & M2 & Re4). fold m in A4. rewrite A4, Re4. clear A4 Re4. fold t2. fold (answers_on_wire S t2 code k).
  assert (Fin : exists k4 n4 tc4, arrive wc tc3 c3 jc an (match z with Early => answers_on_wire S t2 code k | Middle => answers_on_wire S t1 code k ++ answers_on_wire S t2 code k | Late => answers_on_wire S t2 code k ++ answers_on_wire S t1 code k end) = (set_ln_ctl (Some k4) c3, tc4) /\
    sget (fst an) (c_found k4) = Some n4 /\ c_resp k4 = match S code with Some t => Some (set_from (Some an) (read_reply t2 code t k)) | None => None end).
  { destruct z.
    - destruct (ctl_answers PS wc tc3 c3 jc an k3 n2 S t2 code k Qc Oc3 C3 Nd3 Ti2 So Ck) as (c' & nd' & tc & A & B & _ & R). exists c', nd', tc. split; [exact A|]. split; [exact B|].
      rewrite R. exact (resp_new S t2 code k an k3 m3 Q3 P3 T3).
    - destruct (ctl_answers PS wc tc3 c3 jc an k3 n2 S t1 code k Qc Oc3 C3 Nd3 Ti So Ck) as (c' & nd' & tc & A & B & Q & R). rewrite (resp_old S t1 code k an k3 m3 Q3) in R by (rewrite T3; exact Nt).
      destruct (ctl_answers PS wc tc (set_ln_ctl (Some c') c3) jc an c' nd' S t2 code k Qc Oc3 eq_refl B Ti2 So Ck) as (c'' & nd'' & tc' & A' & B' & _ & R').
      exists c'', nd'', tc'. rewrite arrive_app, A. split; [exact A'|]. split; [exact B'|]. rewrite R'. rewrite Q3 in Q. rewrite P3 in R. exact (resp_new S t2 code k an c' m3 Q R T3).
    - destruct (ctl_answers PS wc tc3 c3 jc an k3 n2 S t2 code k Qc Oc3 C3 Nd3 Ti2 So Ck) as (c' & nd' & tc & A & B & Q & R). rewrite (resp_new S t2 code k an k3 m3 Q3 P3 T3) in R.
      destruct (ctl_answers PS wc tc (set_ln_ctl (Some c') c3) jc an c' nd' S t1 code k Qc Oc3 eq_refl B Ti So Ck) as (c'' & nd'' & tc' & A' & B' & _ & R').
      exists c'', nd'', tc'. rewrite arrive_app, A. split; [exact A'|]. split; [exact B'|]. rewrite R', <- R. rewrite Q3 in Q. apply (resp_old S t1 code k an c' m3 Q). rewrite T3. exact Nt. }
  destruct Fin as (k4 & n4 & tc4 & A5 & N4 & R4). rewrite A5. eexists. split.
  - f_equal. f_equal. unfold post_end. cbn [ln_ctl set_ln_ctl]. rewrite R4. unfold on_screen. destruct (S code); reflexivity.
  - split; [|exact M2]. split; [exact Oc3|]. split; [do 2 eexists; split; [reflexivity|exact N4]|]. split; [cbn [x_ctl set_ln_ctl ln_mgr]; rewrite G3; lia|]. split; [exact Od2|exact Cd2].
Qed.

(** ** All of them *)
Lemma all_reads (PS : PySet) wc wd jc jd ac an n S : quiet wc -> reliable wc -> quiet wd -> reliable wd -> dest_addr (DNode n) = Some an -> store_ok S ->
  forall l z x, joined jc jd an x -> mirrors (x_dev x) S -> (forall o p, In (o, p) l -> call_ok S (o_code o) (KRead [op_code p])) ->
  exists x', tool_reads wc wd jc jd ac an n l z x = (x', Ok (map (fun '(o, p) => on_screen S (o_code o) (op_code p)) l)) /\
  joined jc jd an x' /\ mirrors (x_dev x') S.
Proof.
  intros Qc Rc Qd Rd Da So l. induction l as [|[o p] l IH]; intros z x J M Ck.
  - exists x. auto.
  - destruct (one_read PS wc wd jc jd ac an n o p (z O) x S Qc Rc Qd Rd Da J M So (Ck o p (or_introl eq_refl))) as (x1 & E1 & J1 & M1).
    destruct (IH (fun i => z (Datatypes.S i)) x1 J1 M1) as (x2 & E2 & J2 & M2); [intros o' p' I; apply Ck; right; exact I|].
    exists x2. cbn [tool_reads map]. rewrite E1, E2. auto.
Qed.
Lemma required_is p : is_read_required p = (op_get p =? 1).
Proof. unfold is_read_required, attribute_required, REQUIRED. destruct (op_get p =? 1); reflexivity. Qed.
Lemma pairs_mandatory n : map (fun '(o, p) => (o_code o, op_code p)) (tool_pairs n) = mandatory (node_objects n).
Proof.
  unfold tool_pairs, mandatory. induction (node_objects n) as [|o l IH]; [reflexivity|]. cbn [flat_map]. rewrite map_app, IH, map_map, (filter_ext _ _ required_is). reflexivity.
Qed.

(** C81 *)
Lemma L_C81_shown_partial : forall (PS : PySet) wc wd jc jd ac an n S z x,
  quiet wc -> reliable wc -> quiet wd -> reliable wd -> dest_addr (DNode n) = Some an ->
  joined jc jd an x -> mirrors (x_dev x) S -> store_ok S ->
  (forall code k, In (code, k) (mandatory (node_objects n)) -> call_ok S code (KRead [k])) ->
  exists x', tool_node wc wd jc jd ac an n z x = (x', Ok (map (fun '(code, k) => on_screen S code k) (mandatory (node_objects n)))) /\
  joined jc jd an x' /\ mirrors (x_dev x') S.
Proof.
  intros PS wc wd jc jd ac an n S z x Qc Rc Qd Rd Da J M So Ck.
  destruct (all_reads PS wc wd jc jd ac an n S Qc Rc Qd Rd Da So (tool_pairs n) z x J M) as (x' & E & J' & M').
  { intros o p I. apply Ck. rewrite <- pairs_mandatory. apply (in_map (fun '(o, p) => (o_code o, op_code p)) _ _ I). }
  exists x'. split; [|auto]. unfold tool_node. rewrite E. f_equal. f_equal. rewrite <- pairs_mandatory, map_map. apply map_ext. intros [o p]. reflexivity.
Qed.

(** An empty D5: the thread that receives the answer stops, and what comes after is not shown either. *)
Definition bare : obj := mkobj 0x029101 "" [(0xD5, mkoprop 0xD5 [] 1 1 0); (0x80, mkoprop 0x80 [0x30] 1 1 1)] HSuper 0 [] CObject.
Definition bare_node : lnode := fst (fst (local_start good_os [] (mkln (mknode None [(0x029101, bare)]) InTable 1 new_manager None) [])).
Definition bare_world : world := mkworld finder [] bare_node [].
Definition bare_store : store := fun code => if code =? 0x029101 then Some (fun c => if c =? 0xD5 then Some (mkcell [] true true) else if c =? 0x80 then Some (mkcell [0x30] true true) else None) else None.
Lemma bare_mirrors : mirrors bare_node bare_store.
Proof.
  intros code. assert (L : ln_objs bare_node = [(0x029101, bare)]) by (vm_compute; reflexivity). rewrite L. unfold bare_store. cbn [dget]. destruct (code =? 0x029101); [|exact Logic.I].
  split; [now left|]. split.
  - intros c p H. unfold get_property in H. cbn in H. destruct (c =? 0xD5) eqn:E1; [assert (p = mkoprop 0xD5 [] 1 1 0) as -> by congruence; cbn; lia|]. destruct (c =? 0x80) eqn:E2; [assert (p = mkoprop 0x80 [0x30] 1 1 1) as -> by congruence; cbn; lia|discriminate].
  - intros c. unfold get_property. cbn. destruct (c =? 0xD5); [reflexivity|]. destruct (c =? 0x80); reflexivity.
Qed.
Lemma L_C81_empty_list_refuted : exists wc wd jc jd ac an n S z x,
  quiet wc /\ reliable wc /\ quiet wd /\ reliable wd /\ dest_addr (DNode n) = Some an /\ joined jc jd an x /\ mirrors (x_dev x) S /\ store_ok S /\
  mandatory (node_objects n) = [(0x029101, 0xD5); (0x029101, 0x80)] /\ on_screen S 0x029101 0x80 = [[0x30]] /\
  exists (PS : PySet) x', tool_node wc wd jc jd ac an n z x = (x', Ok [[]; []]).
Proof.
  exists good_os, good_os, 2%nat, 2%nat, ctl_addr, dev_addr, (mknode (Some dev_addr) [(0x029101, bare)]), bare_store, (fun _ => Middle), bare_world.
  split; [exact good_quiet|]. split; [exact good_reliable|]. split; [exact good_quiet|]. split; [exact good_reliable|].
  split; [reflexivity|]. split.
  { assert (O : online finder 2 /\ online bare_node 2).
    { split; (split; [vm_compute; discriminate|eexists; split; [vm_compute; reflexivity|split; reflexivity]]). }
    split; [apply O|]. split; [do 2 eexists; split; vm_compute; reflexivity|]. split; [vm_compute; split; discriminate|]. split; [apply O|vm_compute; reflexivity]. }
  split; [exact bare_mirrors|]. split.
  { intros code t c l. unfold bare_store. destruct (code =? 0x029101); [|discriminate]. intros E. assert (t = fun c => if c =? 0xD5 then Some (mkcell [] true true) else if c =? 0x80 then Some (mkcell [0x30] true true) else None) as -> by congruence. cbv beta.
    destruct (c =? 0xD5); [intros E2; assert (l = mkcell [] true true) as -> by congruence; split; [constructor|cbn; lia]|]. destruct (c =? 0x80); [|discriminate]. intros E2. assert (l = mkcell [0x30] true true) as -> by congruence. split; [repeat constructor; cbn; lia|cbn; lia]. }
  split; [reflexivity|]. split; [reflexivity|]. exists pyset_nodup. eexists. vm_compute. reflexivity.
Qed.
