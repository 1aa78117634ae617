(** Lemmas that complete C17, C57 and C67: what the code does in the cases left out there. *)
From Verif Require Import PyBase BytesM MsgM PropM ObjM DbData DbM NodeM LocalM CtrlM SpecWire SpecObj SpecMap SpecDb SpecReq SpecNode SpecLocal SpecSrv SpecCtrl SpecEnd SpecSess SpecExact
  DictP BytesP WireP CodecP ObjP MapP ReqP DbP NodeP ProfP LocalP AnswerP SrvP CtrlP EndP DiscP SessP.
From Verif Require Import SpecReq.

Lemma hits_low bm : hits bm = low_codes bm.
Proof.
  unfold hits, low_codes. apply flat_map_ext. intros i. unfold hit. cbn [seq flat_map]. rewrite !andb_false_r, !andb_true_r, !app_nil_r. cbn [filter map].
  change (Z.of_nat 0) with 0. change (Z.of_nat 1) with 1. change (Z.of_nat 2) with 2. change (Z.of_nat 3) with 3.
  destruct (Z.testbit (nth i bm 0) 0), (Z.testbit (nth i bm 0) 1), (Z.testbit (nth i bm 0) 2), (Z.testbit (nth i bm 0) 3); reflexivity.
Qed.
Lemma L_C17_exact : forall cnt bm, 16 <= cnt -> length bm = 16%nat ->
  property_map_codes (cnt :: bm) =
  MapCodes (firstn (Z.to_nat cnt) (low_codes bm) ++ repeat 0 (Z.to_nat cnt - length (low_codes bm))).
Proof. intros cnt bm H L. rewrite <- hits_low. exact (decode2 cnt bm H L). Qed.

Lemma rule_req s : attribute_required (rule_attr s) = true <-> demanded s.
Proof.
  unfold rule_attr, demanded. cbn [In]. destruct (String.eqb_spec s "mandatory"%string) as [->|N1]; [split; [auto|reflexivity]|].
  destruct (String.eqb_spec s "required"%string) as [->|N2]; [split; [auto|reflexivity]|]. cbn [orb].
  destruct (String.eqb s "optional"); (split; [intros C; discriminate C|intros [C|[C|[]]]; symmetry in C; contradiction]).
Qed.
Lemma rule_en s : attribute_enabled (rule_attr s) = true <-> marked_plainly s.
Proof.
  unfold rule_attr, marked_plainly. cbn [In]. destruct (String.eqb_spec s "mandatory"%string) as [->|N1]; [split; [auto|reflexivity]|].
  destruct (String.eqb_spec s "required"%string) as [->|N2]; [split; [auto|reflexivity]|]. cbn [orb].
  destruct (String.eqb_spec s "optional"%string) as [->|N3]; [split; [auto|reflexivity]|].
  split; [intros C; discriminate C|intros [C|[C|[C|[]]]]; symmetry in C; contradiction].
Qed.
Lemma L_C57_exact : forall (PS : PySet) a code x r, set_code 0 a = (code, true) ->
  row_for x (object_rows (group_of code) (class_of code)) = Some r ->
  let '(g, s, n) := snd r in
  exists o p, new_standard a = (o, Ok tt) /\ get_property x o = Some p /\
    (is_read_enabled p = true <-> marked_plainly g) /\ (is_read_required p = true <-> demanded g) /\
    (is_write_enabled p = true <-> marked_plainly s) /\ (is_write_required p = true <-> demanded s) /\
    (is_announce_enabled p = true <-> marked_plainly n) /\ (is_announce_required p = true <-> demanded n).
Proof.
  intros PS a code x r H Hr. destruct (snd r) as [[g s] n] eqn:Er. destruct (L_C56_standard_properties PS a code H) as (o & E & _ & _ & G).
  specialize (G x). rewrite Hr in G. destruct G as (p & Gp & (M1 & M2 & M3 & M4)). rewrite Er in M2, M3, M4. cbn [fst snd] in M2, M3, M4.
  exists o, p. split; [assumption|]. split; [assumption|].
  unfold is_read_enabled, is_write_enabled, is_announce_enabled, is_read_required, is_write_required, is_announce_required. rewrite M2, M3, M4.
  repeat split; solve [apply rule_en|apply rule_req].
Qed.

(** ** C67: a device whose thread has ended *)
Definition dead_at (s : lnode) (i : nat) : Prop := match server_at s i with Some v => s_alive v = false | None => True end.
Lemma arrive_dead (PS : PySet) w tr s i a bs : dead_at s i -> arrive w tr s i a bs = (s, tr).
Proof.
  intros Al. unfold arrive. induction bs as [|b bs IH]; [reflexivity|]. cbn [map run]. rewrite kill_dead by exact Al. exact IH.
Qed.
Lemma since_self tr : since tr tr = [].
Proof. rewrite <- (app_nil_r tr) at 2. apply since_app. Qed.
Lemma client_dead (PS : PySet) wc wd jc jd ac an d l : forall x, dead_at (x_dev x) jd ->
  exists x', client wc wd jc jd ac an d l x = (x', repeat None (length l)) /\ x_dev x' = x_dev x.
Proof.
  induction l as [|[code k] l IH]; intros x D; [exists x; split; reflexivity|]. cbn [client length repeat].
  assert (T : exists x1, transact wc wd jc jd ac an (request code k) d x = (x1, None) /\ x_dev x1 = x_dev x).
  { unfold transact, post_begin. destruct (ln_ctl (x_ctl x)) as [c|]; [|eexists; split; reflexivity].
    destruct (ctl_send wc (x_ctr x) (x_ctl x) (request code k) d) as [[[s1 tr1] m1] r]. destruct r as [[|]|e]; try (eexists; split; reflexivity).
    rewrite arrive_dead by exact D. rewrite since_self. cbn [reach sent flat_map filter map]. unfold arrive. cbn [map run].
    eexists. split; reflexivity. }
  destruct T as (x1 & -> & E1). destruct (IH x1) as (x2 & -> & E2); [rewrite E1; exact D|]. exists x2. split; [reflexivity|congruence].
Qed.

Lemma arrive_raises (PS : PySet) w tr s j a f s' tr' e : online s j -> frame_msg f -> (length (wire f) <= 1024)%nat ->
  node_received w tr s (set_from (Some a) f) = (s', tr', Err e) -> arrive w tr s j a [wire f] = (kill j s', tr').
Proof.
  intros (_ & v & V & A & O) F L N. unfold arrive. cbn [map run].
  destruct (deliver_frame PS w tr s j (wire f, a) (set_from (Some a) f)) as (v' & V' & E).
  { split; [eauto|]. cbn [fst snd]. split; [exact L|]. split; [apply wire_bytes_ok; apply F|]. exists f. split; [|reflexivity]. split; [exact F|]. exists []. now rewrite app_nil_r. }
  assert (v' = v) by congruence. subst v'. rewrite E, O. cbn [notify tell]. rewrite N. reflexivity.
Qed.

Lemma obj_fatal s ac code o t ps cs : holds o t -> forallb (known t) cs = false ->
  exists o', obj_message_received o (as_received s ac (request code (KWriteRead ps cs))) = (o', o_obs o, Err AttributeError) /\ holds o' (pokes t ps).
Proof.
  intros H Kn. pose proof H as (B & W & _). cbn [request].
  set (q := as_received s ac (write_read_request code ps cs)).
  destruct (L_C22_write_read_partial o q B W eq_refl eq_refl) as (o1 & Wo & Ob).
  change (m_gets q) with (map (fun c => mkprop c []) cs) in Ob. change (m_sets q) with ps in *. exists o1. pose proof (holds_written o t ps o1 H Wo) as H1. split; [|exact H1].
  assert (Hs : forallb (fun mp => has_property (p_code mp) o) (map (fun c => mkprop c []) cs) = false).
  { clear -H Kn. rewrite <- Kn. clear Kn. induction cs as [|c cs IH]; [reflexivity|]. cbn [map forallb]. rewrite IH. f_equal. unfold has_property. cbn [p_code].
    unfold known. destruct H as (_ & _ & H). rewrite <- H. destruct (get_property c o); reflexivity. }
  rewrite Hs in Ob. exact Ob.
Qed.

Lemma L_C67_unknown_refuted : forall (PS : PySet) wc wd jc jd ac an d x (S : store) code t ps cs l,
  quiet wc -> reliable wc -> quiet wd -> dest_addr d = Some an -> joined jc jd an x -> mirrors (x_dev x) S -> S code = Some t ->
  let k := KWriteRead ps cs in
  0 <= code < 2 ^ 24 -> encodable (request code k) -> Forall data_ok ps -> (length (wire (request code k)) <= 1024)%nat ->
  (exists c, In c cs /\ t c = None) ->
  exists x', client wc wd jc jd ac an d ((code, k) :: l) x = (x', None :: map (fun _ => None) l) /\
  mirrors (x_dev x') (store_after S code k).
Proof.
  intros PS wc wd jc jd ac an d x S code t ps cs l Qc Rc Qd Da J M Sc k Co En D2 Le (c0 & Ic & Tc0).
  assert (Kn : forallb (known t) cs = false).
  { destruct (forallb (known t) cs) eqn:E; [|reflexivity]. rewrite forallb_forall in E. specialize (E c0 Ic). unfold known in E. rewrite Tc0 in E. discriminate E. }
  assert (D1 : Forall data_ok (m_props (request code k))) by constructor.
  pose proof (request_frame (x_ctl x) ac code k Co En D1 D2) as Fq.
  assert (Lq : (length (wire (as_received (x_ctl x) ac (request code k))) <= 1024)%nat) by (rewrite wire_len in *; exact Le).
  pose proof (M code) as Mc. rewrite Sc in Mc. destruct (zget code (ln_objs (x_dev x))) as [o|] eqn:Zo; [|contradiction].
  destruct (obj_fatal (x_ctl x) ac code o t ps cs Mc Kn) as (o' & Ob & H').
  assert (T : exists x1, transact wc wd jc jd ac an (request code k) d x = (x1, None) /\ dead_at (x_dev x1) jd /\ mirrors (x_dev x1) (store_after S code k)).
  { destruct J as (Oc & (c & nd & C & Nd) & Tc & Od & Cd).
    unfold transact. set (sc := x_ctl x) in *. set (sd := x_dev x) in *. set (q := as_received sc ac (request code k)) in *.
    destruct (post_sends wc (x_ctr x) sc jc ac an d (request code k) Qc Rc Da Oc (ex_intro _ c C) Tc eq_refl (proj1 Fq)) as (c' & m' & tc & C' & PB & Re).
    rewrite C in C'. injection C' as <-. rewrite PB. change (as_received sc ac (request code k)) with q in Re. rewrite Re.
    assert (Hq : received_from ac q) by (exists (set_from None q); split; [exact Fq|reflexivity]).
    destruct (node_received wd (x_dtr x) sd q) as [[sd1 td1] rd] eqn:NR.
    destruct (node_received_spec wd (x_dtr x) sd ac q Hq) as (s2 & evs & r2 & E2 & LSp & _). rewrite NR in E2. injection E2 as <- -> <-.
    specialize (LSp (or_introl Cd)). unfold local_spec in LSp. change (m_DEOJ q) with code in LSp. rewrite Zo in LSp.
    destruct LSp as (oe & snds2 & -> & Foe & [(_ & _ & NQ & _)|LSp]); [contradiction|]. change (obj_message_received o q = (o', o_obs o, Err AttributeError)) in Ob. rewrite Ob in LSp. destruct LSp as (_ & g2 & -> & G2 & -> & -> & ->).
    assert (Aq : arrive wd (x_dtr x) sd jd ac [wire q] = (kill jd (set_ln_mgr (ln_mgr sd) (put_obj code o' sd)), x_dtr x ++ oe ++ map ev_of [])).
    { change (wire q) with (wire (set_from None q)). apply (arrive_raises PS _ _ _ _ _ _ _ _ AttributeError); [exact Od|exact Fq|exact Lq|]. exact NR. }
    rewrite Aq, since_app. assert (Ra : reach ac (oe ++ map ev_of []) = []) by (unfold reach; rewrite sent_app, (obj_events_sent _ _ _ Foe); reflexivity). rewrite Ra.
    unfold arrive. cbn [map run]. eexists. split; [reflexivity|]. cbn [x_dev]. split; [exact (server_kill _ jd)|].
    intros i. destruct (kill_shape jd (set_ln_mgr (ln_mgr sd) (put_obj code o' sd))) as (_ & _ & Ko & _). rewrite Ko.
    change (ln_objs (set_ln_mgr (ln_mgr sd) (put_obj code o' sd))) with (ln_objs (put_obj code o' sd)). rewrite zget_put.
    unfold store_after. rewrite Sc. destruct (Z.eqb_spec i code) as [->|Ni]; [rewrite ?Zo; exact H'|]. exact (M i). }
  destruct T as (x1 & T & Dd & M1). destruct (client_dead PS wc wd jc jd ac an d l x1 Dd) as (x2 & C2 & E2).
  exists x2. cbn [client]. rewrite T, C2. split; [|rewrite E2; exact M1].
  f_equal. f_equal. clear. induction l as [|a l IH]; [reflexivity|]. cbn [length repeat map]. f_equal. exact IH.
Qed.
