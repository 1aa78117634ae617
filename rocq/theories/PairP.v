(** Lemmas for C123. *)
From Verif Require Import PyBase BytesM EsvM MsgM PropM ObjM DbData DbM NodeM LocalM CtrlM OutM GuideM DocM PairM
  SpecHex SpecWire SpecObj SpecDb SpecReq SpecNode SpecProf SpecLocal SpecSrv SpecCtrl SpecEnd SpecSess SpecDisc SpecLog SpecOut SpecMono SpecDoc SpecGuide SpecPair
  DictP BytesP WireP CodecP ObjP MapP ReqP NodeP ProfP LocalP AnswerP SrvP MonoP DocP.
From Verif Require CtrlP SessP EndP DiscP GuideP.
From Verif Require Import SpecReq.
Require Import ZifyBool.

(** A request that raises in the device: nobody is answered, and the server has ended. *)
Lemma exchange_raises : forall (PS : PySet) wc wd jc jd ac an d m x o o' told e,
  quiet wc -> reliable wc -> quiet wd -> dest_addr d = Some an -> joined jc jd an x ->
  let q := as_received (x_ctl x) ac m in
  m_TID m = 0 -> frame_msg (set_from None q) -> (length (wire q) <= 1024)%nat ->
  zget (m_DEOJ m) (ln_objs (x_dev x)) = Some o -> obj_message_received o q = (o', told, Err e) ->
  exists x', transact wc wd jc jd ac an m d x = (x', None) /\ online (x_ctl x') jc /\ has_found (x_ctl x') (fst an) /\ 0 <= g_tid (ln_mgr (x_ctl x')) <= 65535 /\
  ln_ctl (x_dev x') = None /\ zget (m_DEOJ m) (ln_objs (x_dev x')) = Some o' /\ match server_at (x_dev x') jd with Some v => s_alive v = false | None => True end.
Proof.
  intros PS wc wd jc jd ac an d m x o o' told e Qc Rc Qd Da (Oc & (c & nd & C & Nd) & Tc & Od & Cd) q T0 Fq Lq Z Ob.
  unfold transact. set (sc := x_ctl x) in *. set (sd := x_dev x) in *.
  destruct (SessP.post_sends wc (x_ctr x) sc jc ac an d m Qc Rc Da Oc (ex_intro _ c C) Tc T0 (proj1 Fq)) as (c' & m' & tc & C' & PB & Re).
  rewrite C in C'. injection C' as <-. rewrite PB. change (as_received sc ac m) with q in Re. rewrite Re.
  assert (Hq : received_from ac q) by (exists (set_from None q); split; [exact Fq|reflexivity]).
  destruct (node_received wd (x_dtr x) sd q) as [[sd1 td1] rd] eqn:NR.
  destruct (node_received_spec wd (x_dtr x) sd ac q Hq) as (s2 & evs & r2 & E2 & LSp & _). rewrite NR in E2. injection E2 as <- -> <-.
  specialize (LSp (or_introl Cd)). unfold local_spec in LSp. change (m_DEOJ q) with (m_DEOJ m) in LSp. rewrite Z in LSp.
  destruct LSp as (oe & snds2 & -> & Foe & [(_ & _ & NQ & _)|LSp]); [contradiction|]. rewrite Ob in LSp. destruct LSp as (_ & g2 & -> & G2 & -> & -> & ->).
  destruct Od as (Oi & v & V & Al & Obs). unfold arrive. cbn [map run].
  assert (HF := fun A B C => DiscP.hear_frame PS wd (x_dtr x) sd jd v (wire q) ac (set_from None q) _ _ _ V Al Obs A B C NR).
  rewrite HF; [|apply (wire_bytes_ok (set_from None q)); apply Fq|exact Lq|split; [exact Fq|exists []; now rewrite app_nil_r]].
  cbn [map app]. rewrite app_nil_r, EndP.since_app. unfold reach at 1. rewrite (obj_events_sent _ _ _ Foe). cbn [filter map arrive run].
  destruct (DiscP.kill_shape jd (set_ln_mgr (ln_mgr sd) (put_obj (m_DEOJ m) o' sd))) as (_ & _ & Ko & _).
  eexists. split; [reflexivity|]. cbn [x_ctl x_dev]. split; [exact Oc|]. split; [do 2 eexists; split; [reflexivity|exact Nd]|]. split.
  { cbn [ln_mgr set_ln_ctl set_ln_mgr g_tid]. unfold next_tid. pose proof (Z.mod_pos_bound (g_tid (ln_mgr sc)) 65535). lia. }
  split; [unfold kill; destruct (nth_error _ jd); exact Cd|]. split; [|apply server_kill].
  rewrite Ko. change (ln_objs (set_ln_mgr (ln_mgr sd) (put_obj (m_DEOJ m) o' sd))) with (ln_objs (put_obj (m_DEOJ m) o' sd)). rewrite zget_put, Z.eqb_refl. reflexivity.
Qed.
(** A device whose server has ended. *)
Lemma exchange_dead : forall (PS : PySet) wc wd jc jd ac an d m x,
  quiet wc -> reliable wc -> dest_addr d = Some an -> online (x_ctl x) jc -> has_found (x_ctl x) (fst an) -> 0 <= g_tid (ln_mgr (x_ctl x)) <= 65535 ->
  m_TID m = 0 -> encodable m -> match server_at (x_dev x) jd with Some v => s_alive v = false | None => True end ->
  exists x', transact wc wd jc jd ac an m d x = (x', None) /\ online (x_ctl x') jc /\ has_found (x_ctl x') (fst an) /\ 0 <= g_tid (ln_mgr (x_ctl x')) <= 65535 /\ x_dev x' = x_dev x.
Proof.
  intros PS wc wd jc jd ac an d m x Qc Rc Da Oc (c & nd & C & Nd) Tc T0 En Dd. unfold transact.
  destruct (SessP.post_sends wc (x_ctr x) (x_ctl x) jc ac an d m Qc Rc Da Oc (ex_intro _ c C) Tc T0 En) as (c' & m' & tc & C' & PB & Re).
  rewrite C in C'. injection C' as <-. rewrite PB, Re. unfold arrive at 1. cbn [map run]. rewrite (kill_dead PS wd (x_dtr x) (x_dev x) jd _ Dd).
  assert (Es : since (x_dtr x) (x_dtr x) = []) by (unfold since; apply skipn_all). rewrite Es. cbn [reach sent filter map arrive run].
  eexists. split; [reflexivity|]. cbn [x_ctl x_dev]. split; [exact Oc|]. split; [do 2 eexists; split; [reflexivity|exact Nd]|]. split; [|reflexivity].
  cbn [ln_mgr set_ln_ctl set_ln_mgr g_tid]. unfold next_tid. pose proof (Z.mod_pos_bound (g_tid (ln_mgr (x_ctl x))) 65535). lia.
Qed.

(** ** One write of the controller of the documentation to the device of the documentation *)
Section Pair.
Context {PS : PySet} (wc wd : os) (jc jd : nat) (ac an : addr) (n : node) (o0 : obj).
Context (Qc : quiet wc) (Rc : reliable wc) (Qd : quiet wd) (Rd : reliable wd) (Da : dest_addr (DNode n) = Some an) (K : has_property 0x80 o0 = true).

Definition together (st : bool * list Z) (x : world) : Prop :=
  online (x_ctl x) jc /\ has_found (x_ctl x) (fst an) /\ 0 <= g_tid (ln_mgr (x_ctl x)) <= 65535 /\ ln_ctl (x_dev x) = None /\
  (if fst st then online (x_dev x) jd else match server_at (x_dev x) jd with Some v => s_alive v = false | None => True end) /\
  exists o, zget 0x029101 (ln_objs (x_dev x)) = Some o /\ doc_device doc_handler o0 (snd st) o.

Lemma write_frame s c w : 0 <= c < 256 -> Forall (fun b => 0 <= b < 256) w -> zlen w <= 255 ->
  let q := as_received s ac (guide_request 0x029101 c w) in frame_msg (set_from None q) /\ (length (wire q) <= 1024)%nat.
Proof.
  intros Hc Hw Hl q. pose proof (GuideP.small_call (fun _ => None) 0x029101 c w) as Sm. destruct Sm as (Co & En & D1 & D2 & Le & _).
  { intros code t k l E. discriminate. } { unfold small_write. repeat split; try lia; assumption. }
  split; [exact (SessP.request_frame s ac 0x029101 (KPost [mkprop c w]) Co En D1 D2)|]. rewrite EndP.wire_len in *. exact Le.
Qed.
Lemma refusal_frame t c w : 0 <= t < 65536 -> 0 <= c < 256 -> Forall (fun b => 0 <= b < 256) w -> zlen w <= 255 ->
  let r := mkmsg t 0x029101 0x0EF001 0x50 [mkprop c w] [] [] None None in frame_msg r /\ (length (wire r) <= 1024)%nat.
Proof.
  intros Ht Hc Hw Hl r. split.
  - apply EndP.frame_one; [lia|lia|lia|unfold byte_ok; lia|reflexivity|split; [cbn; lia|repeat constructor; cbn; lia]|repeat constructor; exact Hw].
  - assert (length w <= 255)%nat by (unfold zlen in Hl; lia). rewrite EndP.wire_len. cbn. rewrite app_nil_r. lia.
Qed.
Lemma pair_one st x c w : 0 <= c < 256 -> Forall (fun b => 0 <= b < 256) w -> zlen w <= 255 -> together st x ->
  exists x' r, transact wc wd jc jd ac an (guide_request 0x029101 c w) (DNode n) x = (x', r) /\
  shown (snd (pair_step (fun c => has_property c o0) st c w)) (guide_print r) /\
  together (fst (pair_step (fun c => has_property c o0) st c w)) x'.
Proof.
  intros Hc Hw Hl (Oc & Hf & Tc & Cd & Al & o & Z & D). destruct st as [alive d]. cbn [fst snd] in *. unfold pair_step. destruct (write_frame (x_ctl x) c w Hc Hw Hl) as (Fq & Lq).
  set (m := guide_request 0x029101 c w) in *. set (q := as_received (x_ctl x) ac m) in *. pose proof (EndP.next_tid_range (x_ctl x)) as Ti.
  destruct alive; cbn [negb].
  2:{ destruct (exchange_dead PS wc wd jc jd ac an (DNode n) m x Qc Rc Da Oc Hf Tc eq_refl (proj1 Fq) Al) as (x' & E & Oc' & Hf' & Tc' & Dv).
      exists x', None. split; [exact E|]. split; [reflexivity|]. unfold together. rewrite Dv. cbn [fst snd]. repeat (split; [assumption|]). exists o. auto. }
  assert (J : joined jc jd an x) by (unfold joined; auto).
  destruct (dev_step o0 d o q K D) as (_ & Ou & D'). destruct (obj_message_received o q) as [[o' told] r] eqn:Ob. cbn [fst snd] in Ou, D'.
  assert (Da' : doc_answer (fun c => has_property c o0) d q =
    if has_property c o0 then match doc_verdict d c w with
      | fail => (d, Err IndexError) | accept => (w, Ok None)
      | refuse => (d, Ok (Some (mkmsg (next_tid (x_ctl x)) 0x029101 0x0EF001 0x50 [mkprop c w] [] [] None None))) end
    else (d, Ok (Some (mkmsg (next_tid (x_ctl x)) 0x029101 0x0EF001 0x50 [mkprop c []] [] [] None None)))).
  { unfold doc_answer. subst q m. cbn [as_received guide_request m_ESV m_props m_sets m_gets m_TID m_DEOJ m_SEOJ]. cbn. unfold doc_writes. cbn [p_code p_data]. destruct (has_property c o0); [|reflexivity]. destruct (doc_verdict d c w); reflexivity. }
  rewrite Da' in Ou, D'. destruct (has_property c o0) eqn:Kc; cbn [negb].
  - destruct (doc_verdict d c w) eqn:V; cbn [fst snd] in *; subst r.
    + destruct (SessP.exchange_silent PS wc wd jc jd ac an (DNode n) m x Qc Rc Qd Da J eq_refl Fq Lq) as (x' & E & J' & _ & Ks). { right. exists o, o', told. split; [exact Z|exact Ob]. }
      exists x', None. split; [exact E|]. split; [reflexivity|]. destruct J' as (Oc' & Hf' & Tc' & Od' & Cd'). unfold together. cbn [fst snd]. repeat (split; [assumption|]). exists o'. split; [|exact D'].
      rewrite Ks, Z. change (0x029101 =? m_DEOJ m) with true. change (as_received (x_ctl x) ac m) with q. rewrite Ob. reflexivity.
    + destruct (refusal_frame (next_tid (x_ctl x)) c w ltac:(lia) Hc Hw Hl) as (Fr & Lr).
      destruct (EndP.L_C55_exchange PS wc wd jc jd ac an (DNode n) m 0x029101 o o' told _ x Qc Rc Qd Rd Da (proj2 (SessP.joined_linked jc jd an 0x029101 o x) (conj J Z)) eq_refl eq_refl eq_refl Fq Lq Ob) as (x' & E & Lk & _ & _); [discriminate|exact Fr|exact Lr|discriminate|].
      eexists x', _. split; [exact E|]. split.
      * apply (GuideP.answer_printed (set_from (Some an) (mkmsg (next_tid (x_ctl x)) 0x029101 0x0EF001 0x50 [mkprop c w] [] [] None None))); cbn; [lia|repeat constructor; cbn; lia|repeat constructor; exact Hw].
      * apply SessP.joined_linked in Lk as ((Oc' & Hf' & Tc' & Od' & Cd') & Z'). unfold together. cbn [fst snd]. repeat (split; [assumption|]). exists o'. auto.
    + destruct (exchange_raises PS wc wd jc jd ac an (DNode n) m x o o' told IndexError Qc Rc Qd Da J eq_refl Fq Lq Z Ob) as (x' & E & Oc' & Hf' & Tc' & Cd' & Z' & Dd).
      exists x', None. split; [exact E|]. split; [reflexivity|]. unfold together. cbn [fst snd]. repeat (split; [assumption|]). exists o'. auto.
  - cbn [fst snd] in *. subst r. destruct (refusal_frame (next_tid (x_ctl x)) c [] ltac:(lia) Hc) as (Fr & Lr); [constructor|cbn; lia|].
    destruct (EndP.L_C55_exchange PS wc wd jc jd ac an (DNode n) m 0x029101 o o' told _ x Qc Rc Qd Rd Da (proj2 (SessP.joined_linked jc jd an 0x029101 o x) (conj J Z)) eq_refl eq_refl eq_refl Fq Lq Ob) as (x' & E & Lk & _ & _); [discriminate|exact Fr|exact Lr|discriminate|].
    eexists x', _. split; [exact E|]. split.
    + apply (GuideP.answer_printed (set_from (Some an) (mkmsg (next_tid (x_ctl x)) 0x029101 0x0EF001 0x50 [mkprop c []] [] [] None None))); cbn; [lia|repeat constructor; cbn; lia|repeat constructor].
    + apply SessP.joined_linked in Lk as ((Oc' & Hf' & Tc' & Od' & Cd') & Z'). unfold together. cbn [fst snd]. repeat (split; [assumption|]). exists o'. auto.
Qed.
Definition small (cw : Z * list Z) : Prop := 0 <= fst cw < 256 /\ Forall (fun b => 0 <= b < 256) (snd cw) /\ zlen (snd cw) <= 255.
Lemma pair_all l : Forall small l -> forall st x, together st x ->
  exists x' outs, guide_posts wc wd jc jd ac an n (to_light l) x = (x', outs) /\
  Forall2 shown (snd (pair_run (fun c => has_property c o0) st l)) outs /\ together (fst (pair_run (fun c => has_property c o0) st l)) x'.
Proof.
  induction 1 as [|[c w] l (Hc & Hw & Hl) H IH]; intros st x T; [exists x, []; split; [reflexivity|split; [constructor|exact T]]|].
  destruct (pair_one st x c w Hc Hw Hl T) as (x1 & r & E & Sh & T1). cbn [to_light map guide_posts fst snd]. rewrite E. cbn [pair_run].
  destruct (pair_step _ st c w) as [st1 e]. cbn [fst snd] in *. destruct (IH st1 x1 T1) as (x2 & outs & E2 & Sh2 & T2). unfold to_light in E2. rewrite E2.
  destruct (pair_run _ st1 l) as [st2 es]. cbn [fst snd] in *. exists x2, (guide_print r :: outs). split; [reflexivity|]. split; [constructor; assumption|exact T2].
Qed.
End Pair.

(** ** C123 *)
Lemma its_own o d : a_light doc_handler o -> status o = Some d -> has_property 0x80 o = true /\ doc_device doc_handler o d o.
Proof.
  intros (Hh & W) S. unfold status in S. destruct (get_property 0x80 o) as [p|] eqn:G; [|discriminate]. split; [unfold has_property; now rewrite G|].
  split; [exact Hh|]. split; [reflexivity|]. split; [exact W|]. intros c. destruct (Z.eqb_spec c 0x80) as [->|]; [|reflexivity]. rewrite G. cbn in *. injection S as <-. destruct p; reflexivity.
Qed.
Lemma its_status o0 d o : has_property 0x80 o0 = true -> doc_device doc_handler o0 d o -> status o = Some d.
Proof.
  intros K (_ & _ & _ & G). unfold status. rewrite G. cbn [Z.eqb Pos.eqb]. unfold has_property in K. destruct (get_property 0x80 o0) as [p|]; [reflexivity|discriminate].
Qed.
Lemma L_C123_exact : forall (PS : PySet) wc wd jc jd ac an n x o d l,
  quiet wc -> reliable wc -> quiet wd -> reliable wd -> dest_addr (DNode n) = Some an -> joined jc jd an x ->
  zget 0x029101 (ln_objs (x_dev x)) = Some o -> a_light doc_handler o -> status o = Some d ->
  Forall (fun cw => 0 <= fst cw < 256 /\ Forall (fun b => 0 <= b < 256) (snd cw) /\ zlen (snd cw) <= 255) l ->
  exists x' outs alive d' es o', guide_posts wc wd jc jd ac an n (to_light l) x = (x', outs) /\
  pair_run (fun c => has_property c o) (true, d) l = ((alive, d'), es) /\ Forall2 shown es outs /\
  zget 0x029101 (ln_objs (x_dev x')) = Some o' /\ status o' = Some d' /\
  if alive then joined jc jd an x' else match server_at (x_dev x') jd with Some v => s_alive v = false | None => True end.
Proof.
  intros PS wc wd jc jd ac an n x o d l Qc Rc Qd Rd Da (Oc & Hf & Tc & Od & Cd) Z L S H. destruct (its_own o d L S) as (K & D).
  destruct (pair_all wc wd jc jd ac an n o Qc Rc Qd Rd Da K l H (true, d) x) as (x' & outs & E & Sh & T).
  { unfold together. cbn [fst snd]. repeat (split; [assumption|]). exists o. auto. }
  destruct (pair_run _ (true, d) l) as [[alive d'] es]. cbn [fst snd] in *. destruct T as (Oc' & Hf' & Tc' & Cd' & Al & o' & Z' & D'). cbn [fst snd] in *.
  exists x', outs, alive, d', es, o'. split; [exact E|]. split; [reflexivity|]. split; [exact Sh|]. split; [exact Z'|]. split; [exact (its_status o d' o' K D')|].
  destruct alive; [unfold joined; auto|exact Al].
Qed.
(** A status that is not one byte. *)
Lemma run_stuck known d : length d <> 1%nat -> forall l, pair_run known (true, d) l = ((true, d), map (fun cw => Some (0x50, [mkprop (fst cw) (if known (fst cw) then snd cw else [])])) l).
Proof.
  intros N l. induction l as [|[c w] l IH]; [reflexivity|]. cbn [pair_run pair_step negb map fst snd]. destruct (known c); cbn [negb].
  - assert (V : doc_verdict d c w = refuse) by (unfold doc_verdict; destruct (c =? 0x80); [|reflexivity]; destruct d as [|y [|z d]]; [reflexivity|exfalso; apply N; reflexivity|reflexivity]).
    rewrite V, IH. reflexivity.
  - rewrite IH. reflexivity.
Qed.
Lemma run_dead known d l : pair_run known (false, d) l = ((false, d), map (fun _ => None) l).
Proof. induction l as [|[c w] l IH]; [reflexivity|]. cbn [pair_run pair_step negb map]. rewrite IH. reflexivity. Qed.
Lemma run_switch known : known 0x80 = true -> forall l, (forall w, In (0x80, w) l -> length w = 1%nat) -> forall b,
  pair_run known (true, [b]) l = ((true, [switched b l]), map (fun cw => if (fst cw =? 0x80) && on_offb (hd 0 (snd cw)) then None else Some (0x50, [mkprop (fst cw) (if known (fst cw) then snd cw else [])])) l).
Proof.
  intros Kn l. induction l as [|[c w] l IH]; intros H b; [reflexivity|]. cbn [pair_run map fst snd].
  assert (H' : forall w, In (0x80, w) l -> length w = 1%nat) by (intros; apply H; now right). unfold switched. cbn [fold_left].
  match goal with |- context [fold_left ?f l ?b0] => change (fold_left f l b0) with (switched b0 l) end.
  unfold pair_step. cbn [negb]. destruct (Z.eqb_spec c 0x80) as [->|N].
  - rewrite Kn. cbn [negb andb]. pose proof (H w (or_introl eq_refl)) as Lw. destruct w as [|y [|z w]]; try discriminate. unfold doc_verdict. cbn [Z.eqb Pos.eqb hd].
    destruct (on_offb y); rewrite (IH H'); reflexivity.
  - cbn [andb]. assert (E : (match w with [_] => b | _ => b end) = b) by (destruct w as [|y [|z w]]; reflexivity). rewrite E.
    destruct (known c); cbn [negb]; [|rewrite (IH H'); reflexivity]. unfold doc_verdict. destruct (Z.eqb_spec c 0x80); [contradiction|]. rewrite (IH H'). reflexivity.
Qed.
Lemma L_C123_switch_partial : forall (PS : PySet) wc wd jc jd ac an n x o b l,
  quiet wc -> reliable wc -> quiet wd -> reliable wd -> dest_addr (DNode n) = Some an -> joined jc jd an x ->
  zget 0x029101 (ln_objs (x_dev x)) = Some o -> a_light doc_handler o -> status o = Some [b] ->
  Forall (fun cw => 0 <= fst cw < 256 /\ Forall (fun b => 0 <= b < 256) (snd cw) /\ zlen (snd cw) <= 255) l ->
  (forall w, In (0x80, w) l -> length w = 1%nat) ->
  exists x' outs o', guide_posts wc wd jc jd ac an n (to_light l) x = (x', outs) /\ joined jc jd an x' /\
  zget 0x029101 (ln_objs (x_dev x')) = Some o' /\ status o' = Some [switched b l] /\
  Forall2 (fun cw ls => if (fst cw =? 0x80) && on_offb (hd 0 (snd cw)) then ls = []
                        else answer_rows 0x50 [mkprop (fst cw) (if has_property (fst cw) o then snd cw else [])] ls) l outs.
Proof.
  intros PS wc wd jc jd ac an n x o b l Qc Rc Qd Rd Da J Z L S H One. destruct (its_own o [b] L S) as (K & _).
  destruct (L_C123_exact PS wc wd jc jd ac an n x o [b] l Qc Rc Qd Rd Da J Z L S H) as (x' & outs & alive & d' & es & o' & E & R & Sh & Z' & S' & A).
  rewrite (run_switch (fun c => has_property c o) K l One b) in R. assert (alive = true) as -> by congruence. assert (d' = [switched b l]) as -> by congruence.
  match type of R with (_, ?e) = _ => assert (es = e) as -> by congruence end. exists x', outs, o'. repeat (split; [assumption|]). clear - Sh.
  revert outs Sh. induction l as [|cw l IH]; intros outs Sh; cbn [map] in Sh; inversion Sh; subst; constructor; [|apply IH; assumption].
  match goal with X : shown _ _ |- _ => destruct ((fst cw =? 0x80) && on_offb (hd 0 (snd cw))); exact X end.
Qed.
Lemma L_C123_new_refuted : forall (PS : PySet) wc wd jc jd ac an n x r l,
  quiet wc -> reliable wc -> quiet wd -> reliable wd -> dest_addr (DNode n) = Some an -> joined jc jd an x ->
  Forall (fun cw => 0 <= fst cw < 256 /\ Forall (fun b => 0 <= b < 256) (snd cw) /\ zlen (snd cw) <= 255) l ->
  exists s o, new_doc_node r = (s, Ok true) /\ zget 0x029101 (ln_objs s) = Some o /\
  (zget 0x029101 (ln_objs (x_dev x)) = Some o ->
   exists x' outs o', guide_posts wc wd jc jd ac an n (to_light l) x = (x', outs) /\ joined jc jd an x' /\
   zget 0x029101 (ln_objs (x_dev x')) = Some o' /\ status o' = Some [] /\
   Forall2 (fun cw ls => answer_rows 0x50 [mkprop (fst cw) (if has_property (fst cw) o then snd cw else [])] ls) l outs).
Proof.
  intros PS wc wd jc jd ac an n x r l Qc Rc Qd Rd Da J H. destruct (new_doc_ok PS r) as (s & o & E0 & G & L & S). exists s, o. split; [exact E0|]. split; [exact G|]. intros Z.
  destruct (L_C123_exact PS wc wd jc jd ac an n x o [] l Qc Rc Qd Rd Da J Z L S H) as (x' & outs & alive & d' & es & o' & E & R & Sh & Z' & S' & A).
  rewrite run_stuck in R by discriminate. assert (alive = true) as -> by congruence. assert (d' = []) as -> by congruence.
  match type of R with (_, ?e) = _ => assert (es = e) as -> by congruence end. exists x', outs, o'. repeat (split; [assumption|]). clear - Sh.
  revert outs Sh. induction l as [|cw l IH]; intros outs Sh; cbn [map] in Sh; inversion Sh; subst; constructor; [assumption|apply IH; assumption].
Qed.
Lemma L_C123_empty_refuted : forall (PS : PySet) wc wd jc jd ac an n x o b l,
  quiet wc -> reliable wc -> quiet wd -> reliable wd -> dest_addr (DNode n) = Some an -> joined jc jd an x ->
  zget 0x029101 (ln_objs (x_dev x)) = Some o -> a_light doc_handler o -> status o = Some [b] ->
  Forall (fun cw => 0 <= fst cw < 256 /\ Forall (fun b => 0 <= b < 256) (snd cw) /\ zlen (snd cw) <= 255) l ->
  exists x' outs o', guide_posts wc wd jc jd ac an n (to_light ((0x80, []) :: l)) x = (x', outs) /\ Forall (fun ls => ls = []) outs /\
  zget 0x029101 (ln_objs (x_dev x')) = Some o' /\ status o' = Some [b] /\
  match server_at (x_dev x') jd with Some v => s_alive v = false | None => True end.
Proof.
  intros PS wc wd jc jd ac an n x o b l Qc Rc Qd Rd Da J Z L S H. destruct (its_own o [b] L S) as (K & _).
  destruct (L_C123_exact PS wc wd jc jd ac an n x o [b] ((0x80, []) :: l) Qc Rc Qd Rd Da J Z L S) as (x' & outs & alive & d' & es & o' & E & R & Sh & Z' & S' & A).
  { constructor; [cbn; split; [lia|split; [constructor|lia]]|exact H]. }
  cbn [pair_run] in R. unfold pair_step in R. rewrite K in R. cbn [negb doc_verdict Z.eqb Pos.eqb] in R. rewrite run_dead in R.
  assert (alive = false) as -> by congruence. assert (d' = [b]) as -> by congruence. match type of R with (_, ?e) = _ => assert (es = e) as -> by congruence end.
  exists x', outs, o'. split; [exact E|]. split; [|repeat (split; [assumption|]); exact A]. clear - Sh. inversion Sh as [|? ? ? ? A B]; subst. constructor; [exact A|]. clear - B.
  match goal with |- Forall _ ?t => revert t B end. induction l as [|cw l IH]; intros t B; inversion B; subst; constructor; [assumption|apply IH; assumption].
Qed.
Lemma L_C123_long_refuted : forall (PS : PySet) wc wd jc jd ac an n x o b y l,
  quiet wc -> reliable wc -> quiet wd -> reliable wd -> dest_addr (DNode n) = Some an -> joined jc jd an x ->
  zget 0x029101 (ln_objs (x_dev x)) = Some o -> a_light doc_handler o -> status o = Some [b] -> 0 <= y < 256 ->
  Forall (fun cw => 0 <= fst cw < 256 /\ Forall (fun b => 0 <= b < 256) (snd cw) /\ zlen (snd cw) <= 255) l ->
  exists x' ls outs o', guide_posts wc wd jc jd ac an n (to_light ((0x80, [0x30; y]) :: l)) x = (x', ls :: outs) /\ ls = [] /\
  Forall2 (fun cw ls => answer_rows 0x50 [mkprop (fst cw) (if has_property (fst cw) o then snd cw else [])] ls) l outs /\
  zget 0x029101 (ln_objs (x_dev x')) = Some o' /\ status o' = Some [0x30; y].
Proof.
  intros PS wc wd jc jd ac an n x o b y l Qc Rc Qd Rd Da J Z L S Hy H. destruct (its_own o [b] L S) as (K & _).
  destruct (L_C123_exact PS wc wd jc jd ac an n x o [b] ((0x80, [0x30; y]) :: l) Qc Rc Qd Rd Da J Z L S) as (x' & outs & alive & d' & es & o' & E & R & Sh & Z' & S' & A).
  { constructor; [cbn; split; [lia|split; [repeat constructor; lia|lia]]|exact H]. }
  cbn [pair_run] in R. unfold pair_step in R. rewrite K in R. cbn [negb doc_verdict Z.eqb Pos.eqb] in R. change (on_offb 0x30) with true in R. cbv iota in R. rewrite run_stuck in R by discriminate.
  assert (d' = [0x30; y]) as -> by congruence. match type of R with (_, ?e) = _ => assert (es = e) as -> by congruence end.
  inversion Sh as [|? ls ? outs' A1 B]; subst. exists x', ls, outs', o'. split; [exact E|]. split; [exact A1|]. split; [|split; assumption]. clear - B.
  revert outs' B. induction l as [|cw l IH]; intros t B; cbn [map] in B; inversion B; subst; constructor; [assumption|apply IH; assumption].
Qed.
