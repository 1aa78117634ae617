(** Lemmas for C55. *)
From Verif Require Import PyBase BytesM EsvM MsgM PropM ObjM DbData DbM NodeM LocalM CtrlM
  SpecWire SpecObj SpecReq SpecDb SpecNode SpecProf SpecLocal SpecSrv SpecCtrl SpecEnd DictP BytesP WireP CodecP ObjP MapP ReqP DbP NodeP ProfP LocalP AnswerP SrvP CtrlP.
From Verif Require Import SpecReq.
Require Import ZifyBool.

Lemma since_app tr evs : since tr (tr ++ evs) = evs.
Proof. unfold since. rewrite skipn_app, skipn_all, Nat.sub_diag. reflexivity. Qed.
Lemma addr_eqb_refl a : addr_eqb a a = true.
Proof. unfold addr_eqb. rewrite String.eqb_refl, Z.eqb_refl. reflexivity. Qed.
Lemma reach_one a evs i b n : sent evs = [(i, b, a, Ok n)] -> 0 < n -> reach a evs = [b].
Proof.
  intros E N. unfold reach. rewrite E. cbn [filter]. unfold delivered. cbn [snd fst]. rewrite addr_eqb_refl. replace (0 <? n) with true by lia. reflexivity.
Qed.
Lemma next_tid_spec g : 0 <= g_tid g <= 65535 -> next_TID g = (mkmgr (g_tid g mod 65535 + 1) (g_servers g), g_tid g mod 65535 + 1).
Proof.
  intros T. unfold next_TID. assert (E : (if 0xFFFF <? g_tid g + 1 then 1 else g_tid g + 1) = g_tid g mod 65535 + 1).
  { destruct (Z.ltb_spec 0xFFFF (g_tid g + 1)).
    - replace (g_tid g) with 65535 by lia. reflexivity.
    - rewrite Z.mod_small by lia. reflexivity. }
  rewrite E. reflexivity.
Qed.

(** One datagram with a complete frame at an online node. *)
Lemma arrive_one (PS : PySet) w tr s j a f s' tr' : online s j -> frame_msg f -> (length (wire f) <= 1024)%nat ->
  node_received w tr s (set_from (Some a) f) = (s', tr', Ok tt) -> arrive w tr s j a [wire f] = (s', tr').
Proof.
  intros (_ & v & V & A & O) F L N. unfold arrive. cbn [map run].
  destruct (deliver_frame PS w tr s j (wire f, a) (set_from (Some a) f)) as (v' & V' & E).
  { split; [eauto|]. cbn [fst snd]. split; [exact L|]. split; [apply wire_bytes_ok; apply F|]. exists f. split; [|reflexivity]. split; [exact F|]. exists []. now rewrite app_nil_r. }
  assert (v' = v) by congruence. subst v'. rewrite E, O. cbn [notify tell]. rewrite N. reflexivity.
Qed.

Lemma L_C55_exchange : forall (PS : PySet) wc wd jc jd ac an d m code o o' told rsp x,
  quiet wc -> reliable wc -> quiet wd -> reliable wd -> dest_addr d = Some an -> linked jc jd an code o x ->
  (* a new message to the object [code] that fits a datagram *)
  let q := as_received (x_ctl x) ac m in
  m_TID m = 0 -> m_DEOJ m = code -> is_request (m_ESV m) = true -> frame_msg (set_from None q) -> (length (wire q) <= 1024)%nat ->
  (* the object answers it, and not by a notification *)
  obj_message_received o q = (o', told, Ok (Some rsp)) -> m_ESV rsp <> 0x73 -> frame_msg rsp -> (length (wire rsp) <= 1024)%nat ->
  (m_ESV rsp = 0x72 -> empty_list rsp = false) ->
  exists x', transact wc wd jc jd ac an m d x = (x', Some (set_from (Some an) rsp)) /\ linked jc jd an code o' x' /\
  g_tid (ln_mgr (x_ctl x')) = next_tid (x_ctl x) /\
  forall k, k <> code -> zget k (ln_objs (x_dev x')) = zget k (ln_objs (x_dev x)).
Proof.
  intros PS wc wd jc jd ac an d m code o o' told rsp x Qc Rc Qd Rd Da (Oc & (c & nd & C & Nd) & Tc & Od & Cd & Z) q T0 Dm Rq Fq Lq Ob N73 Fr Lr El.
  unfold transact. set (sc := x_ctl x) in *. set (sd := x_dev x) in *.
  set (t := next_tid sc) in *.
  assert (Tr : 0 < t <= 65535) by (unfold t, next_tid; pose proof (Z.mod_pos_bound (g_tid (ln_mgr sc)) 65535); lia).
  (* the request *)
  assert (Em : encodable m) by (exact (proj1 Fq)).
  destruct (local_send wc (x_ctr x) sc m (Some an)) as [[[c1 tc1] m1] r1] eqn:LS.
  destruct (local_send_ok wc (x_ctr x) sc m an) as (g' & t' & St & Gs & K & _). destruct (K Em) as (snds & m' & r & E & (Tri & Fo) & Re). clear K.
  rewrite LS in E. injection E as -> -> -> ->.
  unfold stamped in St. rewrite T0 in St. cbn [Z.eqb] in St. rewrite next_tid_spec in St by exact Tc. change (g_tid (ln_mgr sc) mod 65535 + 1) with t in St.
  assert (g' = mkmgr t (g_servers (ln_mgr sc)) /\ t' = t) as (-> & ->) by (split; congruence). clear St.
  assert (Wq : wire (set_TID t (set_SEOJ (source sc m) m)) = wire q).
  { unfold source. rewrite C. subst q t. destruct m. reflexivity. }
  rewrite Wq in Tri.
  pose proof (tries_reliable wc _ _ _ _ (wire_nonempty q) Rc Tri Fo) as TR. destruct (open_ifs sc) as [|i ifs] eqn:Oi; [exfalso; apply (proj1 Oc); exact Oi|].
  destruct TR as (n & -> & Np).
  assert (r = Ok true) as ->.
  { destruct r as [b|e].
    - destruct Re as (_ & Re). f_equal. apply Re. exists (i, wire q, an, Ok n). split; [now left|]. unfold delivered. cbn [snd]. lia.
    - exfalso. destruct Re as (y & [<-|[]] & Y). discriminate. }
  pose proof (local_send_tid wc (x_ctr x) sc m (Some an) _ _ _ _ T0 LS) as Tm. cbn [ln_mgr set_ln_mgr g_tid] in Tm.
  assert (PB : post_begin wc (x_ctr x) sc m d = (set_ln_ctl (Some (set_post (Some m') None c)) (set_ln_mgr (mkmgr t (g_servers (ln_mgr sc))) sc), x_ctr x ++ map ev_of [(i, wire q, an, Ok n)], m', Ok true)).
  { unfold post_begin. rewrite C. unfold ctl_send. rewrite Da, LS. reflexivity. }
  rewrite PB. rewrite since_app, (reach_one an _ i (wire q) n (sent_evs _) Np).
  (* the device *)
  assert (Hq : received_from ac q).
  { exists (set_from None q). split; [exact Fq|]. subst q. reflexivity. }
  destruct (node_received wd (x_dtr x) sd q) as [[sd1 td1] rd] eqn:NR.
  destruct (node_received_spec wd (x_dtr x) sd ac q Hq) as (s2 & evs & r2 & E2 & LSp & _). rewrite NR in E2. injection E2 as <- -> <-.
  specialize (LSp (or_introl Cd)). unfold local_spec in LSp. change (m_DEOJ q) with (m_DEOJ m) in LSp. rewrite Dm in LSp. rewrite Z in LSp.
  destruct LSp as (oe & snds2 & -> & Foe & [(_ & _ & NQ & _)|LSp]); [contradiction|]. rewrite Ob in LSp. destruct LSp as (_ & g2 & -> & G2 & t2 & St2 & LSp).
  destruct LSp as [(_ & Tri2 & Fo2 & AR)|(NE & _)]; [|exfalso; apply NE; apply Fr].
  unfold stamped in St2. change (m_TID q) with t in St2. replace (t =? 0) with false in St2 by lia. destruct St2 as (-> & ->).
  replace (m_ESV rsp =? 0x73) with false in Tri2 by lia. cbv zeta in Tri2.
  destruct (L_C18_correlation o q o' told rsp Ob) as (RT & RD & RS).
  assert (Wr : wire (set_TID t (set_SEOJ (source sd rsp) rsp)) = wire rsp).
  { unfold source. rewrite Cd. change (m_TID q) with t in RT. rewrite <- RT. destruct rsp. reflexivity. }
  rewrite Wr in Tri2. pose proof (tries_reliable wd _ _ _ _ (wire_nonempty rsp) Rd Tri2 Fo2) as TR.
  destruct (open_ifs sd) as [|i2 ifs2] eqn:Oi2; [exfalso; apply (proj1 Od); exact Oi2|]. destruct TR as (n2 & -> & Np2).
  assert (rd = Ok tt) as ->.
  { destruct rd as [[]|e]; [reflexivity|]. exfalso. destruct AR as (y & [<-|[]] & Y). discriminate. }
  assert (Aq : arrive wd (x_dtr x) sd jd ac [wire q] = (set_ln_mgr (ln_mgr sd) (put_obj code o' sd), x_dtr x ++ oe ++ map ev_of [(i2, wire rsp, ac, Ok n2)])).
  { change (wire q) with (wire (set_from None q)). apply arrive_one; [exact Od|exact Fq|exact Lq|]. exact NR. }
  rewrite Aq. rewrite since_app.
  rewrite (reach_one ac _ i2 (wire rsp) n2); [|rewrite sent_app, (obj_events_sent _ _ _ Foe), sent_evs; reflexivity|exact Np2].
  (* the controller *)
  set (c0 := set_post (Some m') None c). set (sc1 := set_ln_ctl (Some c0) (set_ln_mgr (mkmgr t (g_servers (ln_mgr sc))) sc)) in *. set (tc1 := x_ctr x ++ _).
  set (m2 := set_from (Some an) rsp).
  assert (Hr : received_from an m2) by (exists rsp; split; [exact Fr|reflexivity]).
  assert (Er := obj_response_esv o q o' told rsp Ob).
  assert (NRq : is_request (m_ESV m2) = false).
  { change (m_ESV m2) with (m_ESV rsp). cbn [In] in Er. repeat destruct Er as [Er|Er]; try (rewrite <- Er; reflexivity). contradiction. }
  destruct (node_received wc tc1 sc1 m2) as [[sc2 tc2] rc] eqn:NC.
  destruct (step_of PS wc tc1 sc1 c0 an m2 sc2 tc2 rc Qc eq_refl Hr NC) as (c2 & C2 & _ & CR). specialize (CR NRq).
  pose proof (ctl_node_received PS wc tc1 sc1 c0 an m2 sc2 tc2 rc eq_refl Hr NC) as CN. rewrite NRq in CN. destruct CN as (c3 & CR3 & Es2).
  assert (c3 = c2) by congruence. subst c3. clear CR3.
  rewrite (ctl_response_eq wc tc1 c0 an m2 Qc Hr NRq) in CR.
  assert (Dr : m_DEOJ m2 = 0x0EF001) by (change (m_DEOJ m2) with (m_DEOJ rsp); rewrite RD; reflexivity).
  rewrite Dr in CR. change (negb (0x0EF001 =? 0x0EF001)) with false in CR. rewrite andb_false_r in CR.
  assert (El2 : from_profile m2 && empty_list m2 = false).
  { destruct (from_profile m2) eqn:FP; [|reflexivity]. apply from_profile_iff in FP. change (m_ESV m2) with (m_ESV rsp) in FP. change (empty_list m2) with (empty_list rsp). rewrite El; [reflexivity|]. destruct FP as [FP|FP]; [exact FP|contradiction]. }
  rewrite El2 in CR. cbv zeta in CR.
  assert (Fnd : exists n1, sget (fst an) (c_found (announce_found an m2 c0)) = Some n1).
  { unfold announce_found. destruct (announces m2); [|exists nd; exact Nd]. cbn [c_found set_found]. rewrite (dget_dset String.eqb seqb_eq), String.eqb_refl. eauto. }
  destruct Fnd as (n1 & Fnd).
  assert (Fin : rc = Ok tt /\ c_resp c2 = Some m2 /\ exists n3, sget (fst an) (c_found c2) = Some n3).
  { assert (PS1 : forall cc, c_req cc = Some m' -> c_resp cc = None -> c_resp (post_step m2 cc) = Some m2).
    { intros cc H1 H2. unfold post_step. rewrite H1, H2. change (m_TID m2) with (m_TID rsp). rewrite RT. change (m_TID q) with t. rewrite Tm, Z.eqb_refl. reflexivity. }
    assert (AF : c_req (announce_found an m2 c0) = Some m' /\ c_resp (announce_found an m2 c0) = None) by (unfold announce_found; destruct (announces m2); split; reflexivity).
    destruct AF as (AF1 & AF2).
    destruct (from_profile m2 || (m_ESV m2 =? 0x7E)).
    - rewrite Fnd in CR. assert (c2 = post_step m2 (set_found (sset (fst an) (rec_node m2 n1) (c_found (announce_found an m2 c0))) (announce_found an m2 c0)) /\ rc = Ok tt) as (-> & ->) by (split; congruence).
      split; [reflexivity|]. split; [apply PS1; assumption|]. rewrite post_found. cbn [c_found set_found]. rewrite (dget_dset String.eqb seqb_eq), String.eqb_refl. eauto.
    - assert (c2 = post_step m2 (announce_found an m2 c0) /\ rc = Ok tt) as (-> & ->) by (split; congruence).
      split; [reflexivity|]. split; [apply PS1; assumption|]. rewrite post_found. eauto. }
  destruct Fin as (-> & Rs & n3 & N3).
  assert (Oc1 : online sc1 jc) by exact Oc.
  rewrite (arrive_one PS wc tc1 sc1 jc an rsp sc2 tc2 Oc1 Fr Lr NC).
  exists (mkworld sc2 tc2 (set_ln_mgr (ln_mgr sd) (put_obj code o' sd)) (x_dtr x ++ oe ++ map ev_of [(i2, wire rsp, ac, Ok n2)])).
  split; [unfold post_end; rewrite C2, Rs; reflexivity|]. split.
  - unfold linked. cbn [x_ctl x_dev]. split; [rewrite Es2; exact Oc|]. split; [exists c2, n3; auto|]. split.
    { rewrite Es2. cbn [ln_mgr set_ln_ctl]. change (g_tid (ln_mgr sc1)) with t. lia. }
    split; [exact Od|]. split; [exact Cd|]. cbn. pose proof (zget_put code code o' sd) as ZP. rewrite Z.eqb_refl in ZP. exact ZP.
  - split; [cbn [x_ctl]; rewrite Es2; reflexivity|]. cbn [x_dev]. intros k Nk. pose proof (zget_put code k o' sd) as ZP. replace (k =? code) with false in ZP by lia. exact ZP.
Qed.

Lemma wire_len m : length (wire m) = (11 + length (wire_body m))%nat.
Proof. unfold wire, wire_header. rewrite !app_length. reflexivity. Qed.
Lemma wire_props_len ps qs : Forall2 (fun p q => (length (p_data p) <= length (p_data q))%nat) ps qs ->
  (length (wire_props ps) <= length (wire_props qs))%nat.
Proof.
  intros H. unfold wire_props. cbn [length]. apply le_n_S. induction H; [apply Nat.le_refl|]. cbn [flat_map]. rewrite !app_length. cbn [wire_prop length]. lia.
Qed.
Lemma blank_len ps : (length (wire_props (map (fun p => mkprop (p_code p) []) ps)) <= length (wire_props ps))%nat.
Proof. apply wire_props_len. induction ps; constructor; [cbn; lia|assumption]. Qed.
Lemma blank_fits ps : fits_list ps -> fits_list (map (fun p => mkprop (p_code p) []) ps).
Proof.
  intros (L & F). split; [unfold zlen in *; rewrite map_length; exact L|]. rewrite Forall_map. eapply Forall_impl; [|exact F]. intros p (A & _). split; [exact A|cbn; lia].
Qed.
Lemma blank_data ps : Forall data_ok (map (fun p => mkprop (p_code p) []) ps).
Proof. rewrite Forall_map. apply Forall_forall. intros p _. constructor. Qed.
Lemma frame_one t a b e ps : 0 <= t < 2 ^ 16 -> 0 <= a < 2 ^ 24 -> 0 <= b < 2 ^ 24 -> byte_ok e -> two_blocks e = false -> fits_list ps -> Forall data_ok ps ->
  frame_msg (mkmsg t a b e ps [] [] None None).
Proof.
  intros T A B E W F D. split; [split; [exact E|]; cbn [m_ESV m_props]; rewrite W; exact F|]. split; [split; [exact D|]; split; constructor|].
  unfold carried. cbn [m_TID m_SEOJ m_DEOJ m_ESV m_props m_sets m_gets]. rewrite W, !Z.mod_small by assumption. reflexivity.
Qed.
Lemma frame_two t a b e ps qs : 0 <= t < 2 ^ 16 -> 0 <= a < 2 ^ 24 -> 0 <= b < 2 ^ 24 -> byte_ok e -> two_blocks e = true -> fits_list ps -> Forall data_ok ps ->
  fits_list qs -> Forall data_ok qs -> frame_msg (mkmsg t a b e [] ps qs None None).
Proof.
  intros T A B E W F D F2 D2. split; [split; [exact E|]; cbn [m_ESV m_sets m_gets]; rewrite W; split; assumption|]. split; [split; [constructor|]; split; assumption|].
  unfold carried. cbn [m_TID m_SEOJ m_DEOJ m_ESV m_props m_sets m_gets]. rewrite W, !Z.mod_small by assumption. reflexivity.
Qed.
Lemma next_tid_range s : 0 <= next_tid s < 2 ^ 16.
Proof. unfold next_tid. pose proof (Z.mod_pos_bound (g_tid (ln_mgr s)) 65535). lia. Qed.

Lemma writable_answers o ps : Forall (writable o) ps -> answers (write_answer o) ps = map (fun p => mkprop (p_code p) []) ps /\ all_accepted (write_answer o) ps = true.
Proof.
  intros F. induction F as [|p ps (q & G & W & _) F (IH1 & IH2)]; [split; reflexivity|]. unfold answers, all_accepted in *. cbn [map forallb]. rewrite IH1, IH2.
  unfold write_answer. rewrite G, W. split; reflexivity.
Qed.
Lemma last_data_nodup ps : NoDup (map p_code ps) -> forall p, In p ps -> last_data (p_code p) ps = Some (p_data p).
Proof.
  induction ps as [|x ps IH]; intros N p I; [contradiction|]. cbn [map] in N. apply NoDup_cons_iff in N as (N1 & N2). cbn [last_data]. destruct I as [->|I].
  - destruct (last_data (p_code p) ps) eqn:L; [|rewrite Z.eqb_refl; reflexivity]. exfalso. apply N1. clear -L. revert L. induction ps as [|y ps IH]; cbn [last_data map]; [discriminate|].
    destruct (last_data (p_code p) ps); [intros EE; right; apply IH; exact EE|]. destruct (Z.eqb_spec (p_code y) (p_code p)); [left; assumption|discriminate].
  - rewrite (IH N2 p I). reflexivity.
Qed.
Lemma written_reads o ps o' : Forall (writable o) ps -> NoDup (map p_code ps) -> written o ps o' ->
  answers (read_answer o') (map (fun p => mkprop (p_code p) []) ps) = ps /\ all_accepted (read_answer o') (map (fun p => mkprop (p_code p) []) ps) = true.
Proof.
  intros F N (_ & _ & G).
  assert (K : forall p, In p ps -> read_answer o' (mkprop (p_code p) []) = (p_data p, true)).
  { intros p I. rewrite Forall_forall in F. destruct (F p I) as (q & Q & W & R). unfold read_answer. cbn [p_code]. pose proof (last_data_nodup ps N p I) as LD. rewrite G, Q. cbv beta iota. rewrite W. rewrite LD.
    change (can_read (set_op_data (p_data p) q)) with (can_read q). rewrite R. reflexivity. }
  clear -K. induction ps as [|p ps IH]; [split; reflexivity|]. destruct IH as (A & B); [intros q I; apply K; right; exact I|].
  unfold answers, all_accepted in *. cbn [map forallb p_code]. rewrite A, B, (K p (or_introl eq_refl)). destruct p; split; reflexivity.
Qed.

Lemma fits_forall ps : fits_list ps -> Forall fits_prop ps. Proof. now intros (_ & F). Qed.

(** C55, write then read. *)
Lemma L_C55_write_then_read_partial : forall (PS : PySet) wc wd jc jd ac an d code o ps x,
  quiet wc -> reliable wc -> quiet wd -> reliable wd -> dest_addr d = Some an -> linked jc jd an code o x ->
  fitting o -> sendable_write o code (write_request code ps) ps ->
  (* the first property is not an empty instance or class list *)
  (forall p l, ps = p :: l -> p_code p = 0xD5 \/ p_code p = 0xD6 -> p_data p <> []) ->
  exists x1 x2 m1 m2 o1,
  transact wc wd jc jd ac an (write_request code ps) d x = (x1, Some m1) /\
  m_ESV m1 = 0x71 /\ m_SEOJ m1 = code /\ m_TID m1 = next_tid (x_ctl x) /\ m_props m1 = codes_only ps /\ m_from m1 = Some an /\
  written o ps o1 /\ linked jc jd an code o1 x1 /\
  transact wc wd jc jd ac an (read_request code (map p_code ps)) d x1 = (x2, Some m2) /\
  m_ESV m2 = 0x72 /\ m_SEOJ m2 = code /\ m_TID m2 = next_tid (x_ctl x1) /\ m_props m2 = ps /\ m_from m2 = Some an /\
  linked jc jd an code o1 x2 /\
  forall k, k <> code -> zget k (ln_objs (x_dev x2)) = zget k (ln_objs (x_dev x)).
Proof.
  intros PS wc wd jc jd ac an d code o ps x Qc Rc Qd Rd Da Lk (Bu & Wf & Fd) (Co & Fl & Dt & Nd & Wr & Le) Ne.
  pose proof (writable_answers o ps Wr) as (An & Ac).
  pose proof (next_tid_range (x_ctl x)) as Tx.
  (* the write *)
  set (q := as_received (x_ctl x) ac (write_request code ps)).
  destruct (L_C21_builtin_write o q Bu Wf) as (o1 & r & Ob & Wo & Rp & Rn); [split; reflexivity|now right|].
  pose proof (L_C23_codes_partial o q o1 _ r Bu Wf (conj eq_refl eq_refl) (or_intror (or_introl eq_refl)) Ob) as Ce.
  change (request_ok o q) with (all_accepted (write_answer o) ps) in Ce. rewrite Ac in Ce. destruct r as [rsp|]; [|discriminate]. cbn [option_map] in Ce. change (ok_service (m_ESV q)) with (Some 0x71) in Ce.
  assert (Ee : m_ESV rsp = 0x71) by congruence. clear Ce Rn. specialize (Rp rsp eq_refl). change (m_props q) with ps in Rp. rewrite An in Rp.
  destruct (response_shape _ _ _ _ _ Ob) as (e & ps' & ss & gs & Er & Sh).
  assert (Er2 : rsp = mkmsg (next_tid (x_ctl x)) code 0x0EF001 0x71 (map (fun p => mkprop (p_code p) []) ps) [] [] None None).
  { subst rsp. cbn in Ee, Rp. subst e ps'. cbn in Sh. destruct Sh as (_ & Sh). destruct (Sh eq_refl) as (-> & -> & _). reflexivity. }
  assert (Fr : frame_msg rsp) by (rewrite Er2; apply frame_one; [exact Tx|exact Co|lia|unfold byte_ok; cbn; lia|reflexivity|apply blank_fits, Fl|apply blank_data]).
  destruct (L_C55_exchange PS wc wd jc jd ac an d (write_request code ps) code o o1 (o_obs o) rsp x Qc Rc Qd Rd Da Lk) as (x1 & X1 & Lk1 & _ & K1).
  - reflexivity.
  - reflexivity.
  - reflexivity.
  - apply frame_one; [exact Tx|cbn; lia|exact Co|unfold byte_ok; cbn; lia|reflexivity|exact Fl|exact Dt].
  - rewrite wire_len in *. exact Le.
  - exact Ob.
  - rewrite Ee. lia.
  - exact Fr.
  - rewrite Er2, wire_len. rewrite wire_len in Le. eapply Nat.le_trans; [|exact Le]. apply Nat.add_le_mono_l. exact (blank_len ps).
  - rewrite Ee. lia.
  - (* the read *)
    pose proof (written_fitting _ _ _ Wo (fits_forall _ Fl) (conj Bu (conj Wf Fd))) as (Bu1 & Wf1 & _).
    pose proof (next_tid_range (x_ctl x1)) as Tx1. destruct (written_reads o ps o1 Wr Nd Wo) as (An1 & Ac1).
    assert (Bl : map (fun c => mkprop c []) (map p_code ps) = map (fun p => mkprop (p_code p) []) ps) by apply map_map.
    set (q1 := as_received (x_ctl x1) ac (read_request code (map p_code ps))).
    pose proof (L_C20_builtin_read o1 q1 Bu1 Wf1 (conj eq_refl eq_refl) eq_refl) as Ob1.
    change (m_props q1) with (map (fun c => mkprop c []) (map p_code ps)) in Ob1. rewrite Bl, An1, Ac1 in Ob1.
    set (rsp1 := mkmsg _ _ _ _ _ _ _ _ _) in Ob1.
    destruct (L_C55_exchange PS wc wd jc jd ac an d (read_request code (map p_code ps)) code o1 o1 (o_obs o1) rsp1 x1 Qc Rc Qd Rd Da Lk1) as (x2 & X2 & Lk2 & _ & K2).
    + reflexivity.
    + reflexivity.
    + reflexivity.
    + unfold as_received, read_request. cbn [m_DEOJ m_ESV m_props m_sets m_gets]. rewrite Bl. apply frame_one; [exact Tx1|cbn; lia|exact Co|unfold byte_ok; cbn; lia|reflexivity|apply blank_fits, Fl|apply blank_data].
    + rewrite wire_len in *. eapply Nat.le_trans; [|exact Le]. apply Nat.add_le_mono_l. unfold wire_body. cbn [m_ESV as_received read_request write_request two_blocks Z.eqb m_props]. rewrite Bl. exact (blank_len ps).
    + exact Ob1.
    + cbn. lia.
    + apply frame_one; [exact Tx1|exact Co|cbn; lia|unfold byte_ok; cbn; lia|reflexivity|exact Fl|exact Dt].
    + rewrite wire_len in *. exact Le.
    + intros _. unfold empty_list. cbn [m_props rsp1]. destruct ps as [|p l]; [reflexivity|]. specialize (Ne p l eq_refl). unfold list_property.
      destruct (p_data p) eqn:Pd; [|apply andb_false_r]. rewrite andb_true_r. destruct (Z.eqb_spec (p_code p) 0xD5); [exfalso; apply Ne; auto|]. destruct (Z.eqb_spec (p_code p) 0xD6); [exfalso; apply Ne; auto|reflexivity].
    + exists x1, x2, (set_from (Some an) rsp), (set_from (Some an) rsp1), o1. split; [exact X1|]. rewrite Er2. do 5 (split; [reflexivity|]). split; [exact Wo|]. split; [exact Lk1|]. split; [exact X2|].
      do 5 (split; [reflexivity|]). split; [exact Lk2|]. intros k Nk. rewrite (K2 k Nk). exact (K1 k Nk).
Qed.

(** C55, write-read. *)
Lemma L_C55_write_read : forall (PS : PySet) wc wd jc jd ac an d code o ps x,
  quiet wc -> reliable wc -> quiet wd -> reliable wd -> dest_addr d = Some an -> linked jc jd an code o x ->
  fitting o -> sendable_write o code (write_read_request code ps (map p_code ps)) ps ->
  exists x1 m1 o1,
  transact wc wd jc jd ac an (write_read_request code ps (map p_code ps)) d x = (x1, Some m1) /\
  m_ESV m1 = 0x7E /\ m_SEOJ m1 = code /\ m_TID m1 = next_tid (x_ctl x) /\ m_sets m1 = codes_only ps /\ m_gets m1 = ps /\ m_from m1 = Some an /\
  written o ps o1 /\ linked jc jd an code o1 x1 /\
  forall k, k <> code -> zget k (ln_objs (x_dev x1)) = zget k (ln_objs (x_dev x)).
Proof.
  intros PS wc wd jc jd ac an d code o ps x Qc Rc Qd Rd Da Lk (Bu & Wf & Fd) (Co & Fl & Dt & Nd & Wr & Le).
  pose proof (writable_answers o ps Wr) as (An & Ac). pose proof (next_tid_range (x_ctl x)) as Tx.
  assert (Bl : map (fun c => mkprop c []) (map p_code ps) = map (fun p => mkprop (p_code p) []) ps) by apply map_map.
  set (q := as_received (x_ctl x) ac (write_read_request code ps (map p_code ps))).
  destruct (L_C22_write_read_partial o q Bu Wf eq_refl eq_refl) as (o1 & Wo & Ob).
  change (m_gets q) with (map (fun c => mkprop c []) (map p_code ps)) in Ob. change (m_sets q) with ps in *. rewrite Bl in Ob.
  destruct (written_reads o ps o1 Wr Nd Wo) as (An1 & Ac1). rewrite An, Ac, An1 in Ob.
  assert (Hs : forallb (fun mp => has_property (p_code mp) o) (map (fun p => mkprop (p_code p) []) ps) = true).
  { apply forallb_forall. intros y I. apply in_map_iff in I as (p & <- & I). rewrite Forall_forall in Wr. destruct (Wr p I) as (g & G & _). unfold has_property. cbn [p_code]. rewrite G. reflexivity. }
  assert (Ac2 : all_accepted (read_answer o) (map (fun p => mkprop (p_code p) []) ps) = true).
  { rewrite <- Ac1. unfold all_accepted. generalize (map (fun p => mkprop (p_code p) []) ps). intros l. induction l as [|p l IH]; [reflexivity|].
    cbn [forallb]. rewrite IH, (written_read_snd _ _ _ _ Wo). reflexivity. }
  rewrite Hs, Ac2 in Ob. cbn [andb] in Ob. set (rsp := mkmsg _ _ _ _ _ _ _ _ _) in Ob.
  assert (Lb : (length (wire_props (map (fun p => mkprop (p_code p) []) ps)) + length (wire_props ps) + 11 <= 1024)%nat).
  { rewrite wire_len in Le. change (wire_body _) with (wire_props ps ++ wire_props (map (fun c => mkprop c []) (map p_code ps))) in Le. rewrite Bl, app_length in Le. lia. }
  destruct (L_C55_exchange PS wc wd jc jd ac an d (write_read_request code ps (map p_code ps)) code o o1 (o_obs o) rsp x Qc Rc Qd Rd Da Lk) as (x1 & X1 & Lk1 & _ & K1).
  - reflexivity.
  - reflexivity.
  - reflexivity.
  - unfold as_received, write_read_request. cbn [m_DEOJ m_ESV m_props m_sets m_gets]. rewrite Bl.
    apply frame_two; [exact Tx|cbn; lia|exact Co|unfold byte_ok; cbn; lia|reflexivity|exact Fl|exact Dt|apply blank_fits, Fl|apply blank_data].
  - rewrite wire_len. change (wire_body _) with (wire_props ps ++ wire_props (map (fun c => mkprop c []) (map p_code ps))). rewrite Bl, app_length. lia.
  - exact Ob.
  - cbn. lia.
  - apply frame_two; [exact Tx|exact Co|cbn; lia|unfold byte_ok; cbn; lia|reflexivity|apply blank_fits, Fl|apply blank_data|exact Fl|exact Dt].
  - rewrite wire_len. change (wire_body _) with (wire_props (map (fun p => mkprop (p_code p) []) ps) ++ wire_props ps). rewrite app_length. lia.
  - cbn. lia.
  - exists x1, (set_from (Some an) rsp), o1. split; [exact X1|]. do 6 (split; [reflexivity|]). split; [exact Wo|]. split; [exact Lk1|]. exact K1.
Qed.

(** A device with a writable property D5, and a controller that has found it. *)
Definition shelf : obj := mkobj 0x029101 "" [(0x80, mkoprop 0x80 [0x30] 1 1 1); (0xD5, mkoprop 0xD5 [1] 1 1 0)] HSuper 0 [] CObject.
Definition shelf_node : lnode := fst (fst (local_start good_os [] (mkln (mknode None [(0x029101, shelf)]) InTable 1 new_manager None) [])).
Definition dev_addr : addr := ("10.0.0.9"%string, 3610).
Definition ctl_addr : addr := ("10.0.0.8"%string, 3610).
Definition finder : lnode :=
  fst (fst (local_start good_os [] (mkln (mknode None []) InTable 1 new_manager (Some (mkctl [("10.0.0.9"%string, mknode (Some dev_addr) [])] None None []))) [])).
Definition pair_world : world := mkworld finder [] shelf_node [].

Lemma pair_linked : linked 2 2 dev_addr 0x029101 shelf pair_world.
Proof.
  assert (O : online finder 2 /\ online shelf_node 2).
  { split; (split; [vm_compute; discriminate|eexists; split; [vm_compute; reflexivity|split; reflexivity]]). }
  split; [apply O|]. split; [do 2 eexists; split; vm_compute; reflexivity|]. split; [vm_compute; split; discriminate|].
  split; [apply O|]. split; vm_compute; reflexivity.
Qed.
Lemma shelf_fitting : fitting shelf.
Proof.
  split; [now left|]. split; intros c p H; unfold get_property in H; cbn in H;
  (destruct (c =? 0x80) eqn:E1; [assert (p = mkoprop 0x80 [0x30] 1 1 1) as -> by congruence|destruct (c =? 0xD5) eqn:E2; [assert (p = mkoprop 0xD5 [1] 1 1 0) as -> by congruence|discriminate]]); cbn; lia.
Qed.

Lemma L_C55_write_then_read_refuted : exists wc wd jc jd ac an d code o ps x,
  quiet wc /\ reliable wc /\ quiet wd /\ reliable wd /\ dest_addr d = Some an /\ linked jc jd an code o x /\
  fitting o /\ sendable_write o code (write_request code ps) ps /\
  exists (PS : PySet) x1 x2 m1, transact wc wd jc jd ac an (write_request code ps) d x = (x1, Some m1) /\ m_ESV m1 = 0x71 /\
  option_map op_data (match zget code (ln_objs (x_dev x1)) with Some o1 => get_property 0xD5 o1 | None => None end) = Some [] /\ ps = [mkprop 0xD5 []] /\
  transact wc wd jc jd ac an (read_request code (map p_code ps)) d x1 = (x2, None).
Proof.
  exists good_os, good_os, 2%nat, 2%nat, ctl_addr, dev_addr, (DNode (mknode (Some dev_addr) [])), 0x029101, shelf, [mkprop 0xD5 []], pair_world.
  split; [exact good_quiet|]. split; [exact good_reliable|]. split; [exact good_quiet|]. split; [exact good_reliable|].
  split; [reflexivity|]. split; [exact pair_linked|]. split; [exact shelf_fitting|]. split.
  { split; [lia|]. split; [split; [cbn; lia|repeat constructor; unfold byte_ok; cbn; lia]|]. split; [repeat constructor|]. split; [repeat constructor; intros []|].
    split; [repeat constructor; eexists; split; [vm_compute; reflexivity|split; reflexivity]|]. vm_compute. lia. }
  exists pyset_nodup. do 3 eexists. split; [vm_compute; reflexivity|]. split; [reflexivity|]. split; [vm_compute; reflexivity|]. split; [reflexivity|]. vm_compute. reflexivity.
Qed.
