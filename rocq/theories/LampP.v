(** Lemmas for C119. *)
From Verif Require Import PyBase BytesM EsvM MsgM PropM ObjM MonoM AskM LampM SpecReq SpecAsk SpecMono SpecLamp DictP AskP MonoP.
Local Open Scope Z_scope.
Lemma switched_app a b : switched (a ++ b) = switched a ++ switched b.
Proof. apply flat_map_app. Qed.
Lemma glow_app hw vs us k lamp said : glow hw k lamp said (vs ++ us) = let '(l, s) := glow hw k lamp said vs in glow hw (k + length vs)%nat l s us.
Proof.
  revert k lamp said. induction vs as [|v vs IH]; intros k lamp said; cbn [glow app length]; [rewrite Nat.add_0_r; reflexivity|].
  rewrite <- Nat.add_succ_comm. destruct (hw k); apply IH.
Qed.
Lemma by_code_set c d ps : by_code ps -> by_code (match zget c ps with Some p => zset c (set_op_data d p) ps | None => ps end).
Proof.
  intros B. destruct (zget c ps) as [p|] eqn:E; [|exact B]. intros k q. rewrite (dget_dset Z.eqb zeqb_eq). destruct (Z.eqb_spec k c) as [->|N]; [|apply B].
  intros [= <-]. destruct p; cbn. apply (B c _ E).
Qed.
Lemma status_set v ps : status_in (set_status v ps) = option_map (fun _ => from_int_n v 1) (status_in ps).
Proof. unfold status_in. rewrite set_status_get. cbn. destruct (zget 128 ps); reflexivity. Qed.
Lemma status_store_in c d s : status_in (a_props (a_store c d s)) = if c =? 0x80 then option_map (fun _ => d) (status_in (a_props s)) else status_in (a_props s).
Proof.
  unfold a_store, status_in. destruct (zget c (a_props s)) as [p|] eqn:E; cbn [a_props].
  - rewrite (dget_dset Z.eqb zeqb_eq). rewrite Z.eqb_sym. destruct (Z.eqb_spec c 0x80) as [->|N]; [rewrite E; reflexivity|reflexivity].
  - destruct (Z.eqb_spec c 0x80) as [->|N]; [rewrite E; reflexivity|reflexivity].
Qed.
Lemma store_asked c d s : a_asked (a_store c d s) = a_asked s.
Proof. unfold a_store. destruct (zget c (a_props s)); reflexivity. Qed.

(** What holds while a message is processed. *)
Definition ok_now (hw : nat -> bool) (k : nat) (lamp : list Z) (said : list string) (s : ast) : Prop :=
  by_code (a_props s) /\ let '(l, t) := glow hw k lamp said (switched (a_asked s)) in
  lamp_shows (status_in (a_props s)) l /\ line_shows (status_in (a_props s)) t.
Definition fine (hw : nat -> bool) (k : nat) (lamp : list Z) (said : list string) (f : ast -> prop -> ast * res (prop * bool)) : Prop :=
  forall s mp, ok_now hw k lamp said s -> ok_now hw k lamp said (fst (f s mp)).
Lemma ok_quiet hw k lamp said s q r : switches q = None -> sense_asker hw k (a_asked s) (a_props s) q = (a_props s, r) -> ok_now hw k lamp said s ->
  ok_now hw k lamp said (fst (ask (sense_asker hw k) s q)).
Proof.
  intros Q E (B & I). unfold ask. rewrite E. cbn [fst]. unfold ok_now. cbn [a_props a_asked]. split; [exact B|]. rewrite switched_app. unfold switched at 2. cbn [flat_map]. rewrite Q, app_nil_r. exact I.
Qed.
Lemma shows_one x (t : list string) w : on_off x -> lamp_shows (Some (x :: w)) (colour x) /\ line_shows (Some (x :: w)) (t ++ [word x]).
Proof.
  intros O. split.
  - exists x, w. split; [reflexivity|]. destruct O as [->| ->]; [left|right]; split; reflexivity.
  - exists x, w, t. split; [reflexivity|]. destruct O as [->| ->]; [left|right]; split; reflexivity.
Qed.
Lemma fine_write hw k lamp said : (forall n, hw n = true) -> fine hw k lamp said (a_write (sense_asker hw k)).
Proof.
  intros HW s mp I. unfold a_write. destruct (zget (p_code mp) (a_props s)) as [p|] eqn:G; [|exact I]. pose proof (proj1 I _ _ G) as Cp.
  destruct (switches (QWrite p (p_data mp))) as [x|] eqn:Sw.
  - pose proof I as (B & IG). cbn [switches] in Sw. destruct (p_data mp) as [|y w] eqn:Ed; [discriminate|]. destruct ((op_code p =? OPERATION_STATUS) && (zlen (op_data p) =? 1) && ((y =? STATUS_ON) || (y =? STATUS_OFF)))%bool eqn:Ec; [|discriminate].
    injection Sw as ->. apply andb_prop in Ec as (Ec & E3). apply andb_prop in Ec as (E1 & E2). unfold ask, sense_asker. rewrite E1, E2. cbn [negb]. rewrite <- negb_orb, E3. cbn [negb]. rewrite HW. cbn [fst].
    assert (O : on_off x) by (apply orb_prop in E3 as [E|E]; apply Z.eqb_eq in E; [left|right]; exact E). apply Z.eqb_eq in E1. rewrite E1 in Cp. unfold OPERATION_STATUS in Cp.
    unfold ok_now. rewrite store_asked, status_store_in, <- Cp. cbn [Z.eqb Pos.eqb a_props a_asked]. rewrite status_set. split.
    { unfold a_store. cbn [a_props a_asked]. destruct (zget 128 (set_status x (a_props s))) as [q|] eqn:Eq; cbn [a_props]; [|unfold set_status; apply by_code_set; exact B].
      pose proof (by_code_set 128 (x :: w) (set_status x (a_props s))) as X. rewrite Eq in X. apply X. unfold set_status. apply by_code_set. exact B. }
    rewrite switched_app, glow_app. destruct (glow hw k lamp said (switched (a_asked s))) as [l t]. unfold switched. cbn [flat_map switches]. rewrite E1, E2, E3. cbn [Z.eqb Pos.eqb OPERATION_STATUS andb app glow]. rewrite HW.
    assert (exists d, status_in (a_props s) = Some d) as (d & ->) by (unfold status_in; rewrite Cp, G; cbn; eauto). cbn [option_map].
    destruct (shows_one x t w O) as (X & Y). split; assumption.
  - assert (exists r, sense_asker hw k (a_asked s) (a_props s) (QWrite p (p_data mp)) = (a_props s, r) /\ (r = Ok true -> p_code mp <> 0x80)) as (r & E & N).
    { unfold sense_asker. cbn [switches] in Sw. destruct (Z.eqb_spec (op_code p) OPERATION_STATUS) as [E1|E1].
      - destruct (zlen (op_data p) =? 1) eqn:E2; cbn [negb andb] in *; [|eexists; split; [reflexivity|discriminate]]. destruct (p_data mp) as [|y w]; [eexists; split; [reflexivity|discriminate]|].
        rewrite <- negb_orb. destruct ((y =? STATUS_ON) || (y =? STATUS_OFF))%bool; [discriminate|]. cbn [negb]. eexists; split; [reflexivity|discriminate].
      - eexists; split; [reflexivity|]. intros _ C. apply E1. rewrite Cp. exact C. }
    pose proof (ok_quiet hw k lamp said s _ _ Sw E I) as I1. unfold ask in *. rewrite E in *. cbn [fst] in I1. destruct r as [[]|e]; cbn [fst]; try exact I1.
    unfold ok_now in *. destruct I1 as (B1 & I1). rewrite store_asked, status_store_in. replace (p_code mp =? 128) with false by (symmetry; apply Z.eqb_neq; apply N; reflexivity). split; [|exact I1].
    unfold a_store. pose proof (by_code_set (p_code mp) (p_data mp) (a_props s) B1) as X. cbn [a_props]. destruct (zget (p_code mp) (a_props s)); exact X.
Qed.
Lemma fine_read hw k lamp said : fine hw k lamp said (a_read (sense_asker hw k)).
Proof.
  intros s mp I. unfold a_read. destruct (zget (p_code mp) (a_props s)) as [p|]; [|exact I].
  pose proof (ok_quiet hw k lamp said s (QRead (Some p)) _ eq_refl eq_refl I) as I1. destruct (ask _ s _) as [s1 [[]|e]]; exact I1.
Qed.
Lemma fine_read_wr hw k lamp said : fine hw k lamp said (a_read_wr (sense_asker hw k)).
Proof.
  intros s mp I. unfold a_read_wr. destruct (zget (p_code mp) (a_props s)) as [p|].
  - pose proof (ok_quiet hw k lamp said s (QRead (Some p)) _ eq_refl eq_refl I) as I1. destruct (ask _ s _) as [s1 [[]|e]]; exact I1.
  - pose proof (ok_quiet hw k lamp said s (QRead None) _ eq_refl eq_refl I) as I1. destruct (ask _ s _) as [s1 [[]|e]]; exact I1.
Qed.
Lemma fine_loop hw k lamp said f : fine hw k lamp said f -> forall l s, ok_now hw k lamp said s -> ok_now hw k lamp said (fst (a_loop f s l)).
Proof.
  intros F l. induction l as [|mp l IH]; intros s I; cbn [a_loop]; [exact I|]. pose proof (F s mp I) as I1. destruct (f s mp) as [s1 [[rp acc]|e]]; [|exact I1]. cbn [fst] in I1.
  specialize (IH s1 I1). destruct (a_loop f s1 l) as [s2 [[rps n]|e]]; exact IH.
Qed.
Lemma fine_received hw k lamp said m s : (forall n, hw n = true) -> ok_now hw k lamp said s -> ok_now hw k lamp said (fst (a_received (sense_asker hw k) s m)).
Proof.
  intros HW I. unfold a_received. destruct (negb (is_request (m_ESV m))); [exact I|]. cbv zeta. destruct (is_write_read_request (m_ESV m)).
  - pose proof (fine_loop _ _ _ _ _ (fine_write hw k lamp said HW) (m_sets m) s I) as I1. destruct (a_loop _ s (m_sets m)) as [s1 [[ss n]|e]]; [|exact I1]. cbn [fst] in I1.
    pose proof (fine_loop _ _ _ _ _ (fine_read_wr hw k lamp said) (m_gets m) s1 I1) as I2. destruct (a_loop _ s1 (m_gets m)) as [s2 [[gs j]|e]]; [|exact I2]. destruct (response_esv _ _); exact I2.
  - assert (F : fine hw k lamp said (a_plain (sense_asker hw k) (m_ESV m))).
    { unfold a_plain. destruct (is_read_request (m_ESV m)); [apply fine_read|]. destruct (is_write_request (m_ESV m)); [apply fine_write; exact HW|]. intros s1 mp I1. exact I1. }
    pose proof (fine_loop _ _ _ _ _ F (m_props m) s I) as I1. destruct (a_loop _ s (m_props m)) as [s1 [[ss n]|e]]; [|exact I1]. destruct (response_esv _ _); exact I1.
Qed.
Definition shown_by (s : sense) : Prop := by_code (z_props s) /\ lamp_shows (status_in (z_props s)) (z_lamp s) /\ line_shows (status_in (z_props s)) (z_said s).
Lemma switch_shows v s hw : hw (z_clears s) = true -> on_off v -> by_code (z_props s) -> status_in (z_props s) <> None ->
  shown_by (fst (let '(lamp, said) := glow hw (z_clears s) (z_lamp s) (z_said s) [v] in
    (mksense (set_status v (z_props s)) lamp said (S (z_clears s)), if hw (z_clears s) then Ok (@None msg) else Err OSError))).
Proof.
  intros HW O B N. cbn [glow]. rewrite HW. cbn [fst]. unfold shown_by. cbn [z_props z_lamp z_said]. rewrite status_set. split; [unfold set_status; apply by_code_set; exact B|].
  destruct (status_in (z_props s)); [|congruence]. cbn [option_map]. destruct O as [-> | ->].
  - split; [exists 0x30, []; split; [reflexivity|left; split; reflexivity]|exists 0x30, [], (z_said s); split; [reflexivity|left; split; reflexivity]].
  - split; [exists 0x31, []; split; [reflexivity|right; split; reflexivity]|exists 0x31, [], (z_said s); split; [reflexivity|right; split; reflexivity]].
Qed.
Lemma step_shows hw s e : (forall n, hw n = true) -> shown_by s -> shown_by (fst (sense_step hw s e)).
Proof.
  intros HW (B & L & T). assert (N : status_in (z_props s) <> None) by (destruct L as (x & l & -> & _); discriminate). destruct e as [| |m]; cbn [sense_step].
  - apply switch_shows; auto. left. reflexivity.
  - apply switch_shows; auto. right. reflexivity.
  - assert (I : ok_now hw (z_clears s) (z_lamp s) (z_said s) (mkast (z_props s) [])) by (split; [exact B|split; assumption]).
    apply (fine_received hw _ _ _ m _ HW) in I. destruct (a_received _ _ m) as [a r]. cbn [fst] in I. destruct I as (B1 & I). destruct (glow _ _ _ _ _) as [l t]. destruct I as (L1 & T1). cbn [fst]. split; [exact B1|split; assumption].
Qed.
Lemma run_shows hw es : (forall n, hw n = true) -> forall s, shown_by s -> shown_by (fst (sense_run hw s es)).
Proof.
  intros HW. induction es as [|e es IH]; intros s I; cbn [sense_run]; [exact I|]. apply (step_shows hw s e HW) in I. destruct (sense_step hw s e) as [s1 a]. specialize (IH s1 I). destruct (sense_run hw s1 es) as [s2 l]. exact IH.
Qed.
Lemma L_C119_shows : forall hw s es, (forall n, hw n = true) -> by_code (z_props s) -> status_in (z_props s) <> None ->
  let s' := fst (sense_run hw s (SOn :: es)) in
  lamp_shows (status_in (z_props s')) (z_lamp s') /\ line_shows (status_in (z_props s')) (z_said s').
Proof.
  intros hw s es HW B N. cbv zeta. cbn [sense_run].
  pose proof (switch_shows 0x30 s hw (HW _) (or_introl eq_refl) B N) as I. change (shown_by (fst (sense_step hw s SOn))) in I. destruct (sense_step hw s SOn) as [s1 a]. cbn [fst] in I.
  apply (run_shows hw es HW) in I. destruct (sense_run hw s1 es) as [s2 l]. exact (proj2 I).
Qed.
(** ** The same as the light of MonoM.v, as long as the lamp works *)
Definition eqv (f g : ast -> prop -> ast * res (prop * bool)) : Prop :=
  forall s mp, by_code (a_props s) -> f s mp = g s mp /\ by_code (a_props (fst (f s mp))).
Definition mono_u : uhandler := mkuhandler mono_read mono_write.
Definition mono_q (n : nat) : asker := counting n mono_u.
Lemma same_answer n k hist ps q : by_code ps -> shown ps q -> mono_q n hist ps q = sense_asker (fun _ => true) k hist ps q /\ by_code (fst (mono_q n hist ps q)).
Proof.
  intros B Q. unfold mono_q, counting, mono_u. destruct q as [[p|]|p d]; cbn [h_read h_write sense_asker shown] in *.
  - unfold mono_read. destruct Q as (c & Q). pose proof (B _ _ Q) as E. rewrite <- E in Q. rewrite Q. split; [reflexivity|exact B].
  - split; [reflexivity|exact B].
  - unfold mono_write. destruct (op_code p =? OPERATION_STATUS); [|split; [reflexivity|exact B]]. destruct (negb (zlen (op_data p) =? 1)); [split; [reflexivity|exact B]|]. destruct d as [|x d]; [split; [reflexivity|exact B]|].
    destruct (x =? STATUS_ON) eqn:E1; [apply Z.eqb_eq in E1; subst x; cbn [negb andb]; split; [reflexivity|unfold set_status; apply by_code_set; exact B]|].
    destruct (x =? STATUS_OFF) eqn:E2; [apply Z.eqb_eq in E2; subst x; cbn [negb andb]; split; [reflexivity|unfold set_status; apply by_code_set; exact B]|]. cbn [negb andb]. split; [reflexivity|exact B].
Qed.
Lemma same_ask n k s q : by_code (a_props s) -> shown (a_props s) q ->
  ask (mono_q n) s q = ask (sense_asker (fun _ => true) k) s q /\ by_code (a_props (fst (ask (mono_q n) s q))).
Proof.
  intros B Q. destruct (same_answer n k (a_asked s) (a_props s) q B Q) as (E & B'). unfold ask. rewrite <- E. destruct (mono_q n (a_asked s) (a_props s) q) as [ps r]. split; [reflexivity|exact B'].
Qed.
Lemma eqv_write n k : eqv (a_write (mono_q n)) (a_write (sense_asker (fun _ => true) k)).
Proof.
  intros s mp B. unfold a_write. destruct (zget (p_code mp) (a_props s)) as [p|] eqn:G; [|split; [reflexivity|exact B]].
  destruct (same_ask n k s (QWrite p (p_data mp)) B) as (E & B'). { cbn [shown]. eauto. } rewrite <- E. destruct (ask _ s _) as [s1 [[]|e]]; cbn [fst] in *; split; try reflexivity; try exact B'.
  unfold a_store. pose proof (by_code_set (p_code mp) (p_data mp) (a_props s1) B') as X. destruct (zget (p_code mp) (a_props s1)); exact X.
Qed.
Lemma eqv_read n k : eqv (a_read (mono_q n)) (a_read (sense_asker (fun _ => true) k)).
Proof.
  intros s mp B. unfold a_read. destruct (zget (p_code mp) (a_props s)) as [p|] eqn:G; [|split; [reflexivity|exact B]].
  destruct (same_ask n k s (QRead (Some p)) B) as (E & B'). { cbn [shown]. eauto. } rewrite <- E. destruct (ask _ s _) as [s1 [[]|e]]; cbn [fst] in *; split; try reflexivity; exact B'.
Qed.
Lemma eqv_read_wr n k : eqv (a_read_wr (mono_q n)) (a_read_wr (sense_asker (fun _ => true) k)).
Proof.
  intros s mp B. unfold a_read_wr. destruct (zget (p_code mp) (a_props s)) as [p|] eqn:G.
  - destruct (same_ask n k s (QRead (Some p)) B) as (E & B'). { cbn [shown]. eauto. } rewrite <- E. destruct (ask _ s _) as [s1 [[]|e]]; cbn [fst] in *; split; try reflexivity; exact B'.
  - destruct (same_ask n k s (QRead None) B) as (E & B'). { cbn [shown]. exact I. } rewrite <- E. destruct (ask _ s _) as [s1 [[]|e]]; cbn [fst] in *; split; try reflexivity; exact B'.
Qed.
Lemma eqv_loop f g : eqv f g -> forall l s, by_code (a_props s) -> a_loop f s l = a_loop g s l /\ by_code (a_props (fst (a_loop f s l))).
Proof.
  intros E l. induction l as [|mp l IH]; intros s B; cbn [a_loop]; [split; [reflexivity|exact B]|]. destruct (E s mp B) as (E1 & B1). rewrite <- E1. destruct (f s mp) as [s1 [[rp acc]|e]]; [|split; [reflexivity|exact B1]]. cbn [fst] in B1.
  destruct (IH s1 B1) as (E2 & B2). rewrite <- E2. destruct (a_loop f s1 l) as [s2 [[rps j]|e]]; split; try reflexivity; exact B2.
Qed.
Lemma same_received n k s m : by_code (a_props s) -> a_received (mono_q n) s m = a_received (sense_asker (fun _ => true) k) s m.
Proof.
  intros B. unfold a_received. destruct (negb (is_request (m_ESV m))); [reflexivity|]. cbv zeta. destruct (is_write_read_request (m_ESV m)).
  - destruct (eqv_loop _ _ (eqv_write n k) (m_sets m) s B) as (E & B1). rewrite <- E. destruct (a_loop _ s (m_sets m)) as [s1 [[ss j]|e]]; [|reflexivity]. cbn [fst] in B1.
    destruct (eqv_loop _ _ (eqv_read_wr n k) (m_gets m) s1 B1) as (E2 & _). rewrite <- E2. reflexivity.
  - assert (F : eqv (a_plain (mono_q n) (m_ESV m)) (a_plain (sense_asker (fun _ => true) k) (m_ESV m))).
    { unfold a_plain. destruct (is_read_request (m_ESV m)); [apply eqv_read|]. destruct (is_write_request (m_ESV m)); [apply eqv_write|]. intros s1 mp B1. split; [reflexivity|exact B1]. }
    destruct (eqv_loop _ _ F (m_props m) s B) as (E & _). rewrite <- E. reflexivity.
Qed.
Lemma L_C119_same : forall o s m, a_light mono_handler o -> z_props s = o_props o ->
  let '(o', _, r) := obj_message_received o m in
  let '(s', r') := sense_step (fun _ => true) s (SMsg m) in r' = r /\ z_props s' = o_props o'.
Proof.
  intros o s m (H & W) P. pose proof (L_C104_same mono_u o m H) as S1. cbn [sense_step]. rewrite P. rewrite <- (same_received (o_calls o) (z_clears s) (mkast (o_props o) []) m W).
  fold (mono_q (o_calls o)) in S1. destruct (obj_message_received o m) as [[o' t] r]. destruct (a_received _ _ m) as [a r']. destruct S1 as (-> & E & _). destruct (glow _ _ _ _ _). split; [reflexivity|]. cbn [z_props]. congruence.
Qed.
Lemma L_C119_broken_refuted : forall hw s m x y, hw (z_clears s) = false -> by_code (z_props s) -> status_in (z_props s) = Some [y] -> on_off y ->
  lamp_shows (status_in (z_props s)) (z_lamp s) -> on_off x -> x <> y -> m_ESV m = 0x60 \/ m_ESV m = 0x61 -> m_props m = [mkprop 0x80 [x]] ->
  exists s', sense_step hw s (SMsg m) = (s', Err OSError) /\ status_in (z_props s') = Some [x] /\ z_lamp s' = z_lamp s /\ ~ lamp_shows (status_in (z_props s')) (z_lamp s').
Proof.
  intros hw s m x y HW B St Oy L O N E P.
  assert (exists p, zget 0x80 (z_props s) = Some p /\ op_data p = [y]) as (p & G & D) by (unfold status_in in St; destruct (zget 128 (z_props s)) as [p|]; [injection St as St; eauto|discriminate]).
  pose proof (B _ _ G) as Cp. destruct L as (y' & l & L1 & L). rewrite St in L1. injection L1 as <- <-.
  assert (R : a_received (sense_asker hw (z_clears s)) (mkast (z_props s) []) m = (mkast (set_status x (z_props s)) [QWrite p [x]], Err OSError)).
  { unfold a_received. assert (is_request (m_ESV m) = true /\ is_write_read_request (m_ESV m) = false /\ is_read_request (m_ESV m) = false /\ is_write_request (m_ESV m) = true) as (-> & -> & R1 & R2) by (destruct E as [-> | ->]; repeat split; reflexivity).
    cbn [negb]. cbv zeta. unfold a_plain. rewrite R1, R2, P. cbn [a_loop]. unfold a_write. cbn [p_code p_data a_props]. rewrite G. unfold ask, sense_asker. cbn [a_asked a_props]. rewrite Cp, D. cbn [Z.eqb Pos.eqb OPERATION_STATUS zlen length Z.of_nat Pos.of_succ_nat negb switched flat_map].
    rewrite Nat.add_0_r, HW. destruct O as [-> | ->]; reflexivity. }
  cbn [sense_step]. rewrite R. cbn [a_asked a_props]. unfold switched. cbn [flat_map switches]. rewrite Cp, D. cbn [Z.eqb Pos.eqb OPERATION_STATUS zlen length Z.of_nat Pos.of_succ_nat andb].
  assert ((x =? STATUS_ON) || (x =? STATUS_OFF) = true)%bool as -> by (destruct O as [-> | ->]; reflexivity). cbn [app glow length]. rewrite HW. eexists. split; [reflexivity|]. cbn [z_props z_lamp]. rewrite status_set, St. cbn [option_map].
  assert (from_int_n x 1 = [x]) as -> by (destruct O as [-> | ->]; reflexivity). split; [reflexivity|]. split; [reflexivity|]. intros (a & b & A & C). injection A as <- <-.
  destruct L as [(-> & L)|(-> & L)]; destruct C as [(-> & C)|(-> & C)]; try contradiction; congruence.
Qed.
(** ** Threads *)
Lemma nth_put i k l j : (i < length l)%nat -> nth_error (put_work i k l) j = if Nat.eqb j i then Some k else nth_error l j.
Proof.
  unfold put_work. revert l j. induction i as [|i IH]; intros [|x l] j H; cbn [length] in H; try lia; [destruct j; reflexivity|].
  cbn [firstn skipn app]. destruct j as [|j]; [reflexivity|]. cbn [nth_error Nat.eqb]. apply IH. lia.
Qed.
Lemma put_len i k l : (i < length l)%nat -> length (put_work i k l) = length l.
Proof. intros H. unfold put_work. rewrite app_length, firstn_length. cbn [length]. rewrite skipn_length. lia. Qed.
Definition agree (h : hall) : Prop := lamp_shows (Some (q_status h)) (q_lamp h).
Definition fits (v : Z) (w : option (list Z)) : Prop := match w with None => True | Some w => exists l, w = v :: l end.
Definition cond (h : hall) (k : worker) : Prop :=
  match k_place k with
  | PIdle | PDead => True
  | PSet v w => agree h /\ on_off v /\ fits v w
  | PLed v w => q_status h = [v] /\ on_off v /\ fits v w
  | PStore w => exists v l, w = v :: l /\ on_off v /\ q_status h = [v] /\ q_lamp h = colour v
  end.
Definition steady (h : hall) : Prop :=
  (forall i k, nth_error (q_work h) i = Some k -> cond h k /\ sane k) /\ (at_rest h -> agree h).
Lemma busy_dec k : busy k \/ ~ busy k.
Proof. unfold busy. destruct (k_place k); auto. Qed.
Lemma rest_nth h : at_rest h <-> forall i k, nth_error (q_work h) i = Some k -> ~ busy k.
Proof.
  unfold at_rest. split; intros H.
  - intros i k N. apply H. apply nth_error_In in N. exact N.
  - intros k I. apply In_nth_error in I as (i & N). exact (H i k N).
Qed.
Lemma agree_on v l lamp : on_off v -> lamp = colour v -> lamp_shows (Some (v :: l)) lamp.
Proof. intros O ->. exists v, l. split; [reflexivity|]. destruct O as [-> | ->]; [left|right]; split; reflexivity. Qed.
Lemma cond_idle h k : ~ busy k -> cond h k.
Proof. unfold busy, cond. destruct (k_place k); tauto. Qed.
(** The workers after a step of worker [i]. *)
Lemma step_steady h i : steady h -> ~ overlap h -> ~ overlap (hall_step h i) -> steady (hall_step h i).
Proof.
  intros (C & R) O O'. pose proof (conj C R : steady h) as S0. unfold hall_step in *. destruct (nth_error (q_work h) i) as [k|] eqn:Ek; [|exact S0].
  assert (Li : (i < length (q_work h))%nat) by (apply nth_error_Some; congruence). destruct (C i k Ek) as (Ck & Sk).
  assert (Others : busy k -> forall j k', j <> i -> nth_error (q_work h) j = Some k' -> ~ busy k').
  { intros Bk j k' Nj Ej Bk'. apply O. exists i, j, k, k'. auto. }
  (* a step of a busy worker *)
  assert (Go : forall st lamp op k', busy k -> sane k' -> cond (mkhall st lamp op (put_work i k' (q_work h))) k' -> (~ busy k' -> agree (mkhall st lamp op (put_work i k' (q_work h)))) -> steady (mkhall st lamp op (put_work i k' (q_work h)))).
  { intros st lamp op k' Bk Sk' Ck' Rk'. split.
    - cbn [q_work]. intros j k1. rewrite nth_put by exact Li. destruct (Nat.eqb_spec j i) as [->|Nj]; [intros [= <-]; auto|]. intros Ej. split; [|apply (C j k1 Ej)]. apply cond_idle. exact (Others Bk j k1 Nj Ej).
    - intros Rs. apply Rk'. apply (proj1 (rest_nth _) Rs i). cbn [q_work]. rewrite nth_put by exact Li. rewrite Nat.eqb_refl. reflexivity. }
  (* a step of an idle worker *)
  assert (Id : forall op k', ~ busy k -> sane k' -> (busy k' -> (agree h -> cond (mkhall (q_status h) (q_lamp h) op (put_work i k' (q_work h))) k')) ->
     ~ overlap (mkhall (q_status h) (q_lamp h) op (put_work i k' (q_work h))) -> steady (mkhall (q_status h) (q_lamp h) op (put_work i k' (q_work h)))).
  { intros op k' Bk Sk' Ck' Ov. assert (Same : forall k1, cond h k1 -> cond (mkhall (q_status h) (q_lamp h) op (put_work i k' (q_work h))) k1) by (intros k1 X; exact X). split.
    - cbn [q_work]. intros j k1. rewrite nth_put by exact Li. destruct (Nat.eqb_spec j i) as [->|Nj]; [intros [= <-]|intros Ej; split; [apply Same|]; apply (C j k1 Ej)]. split; [|exact Sk'].
      destruct (busy_dec k') as [Bk'|Nk']; [|apply cond_idle; exact Nk']. apply Ck'; [exact Bk'|]. apply R. apply rest_nth. intros j k1 Ej. destruct (Nat.eq_dec j i) as [->|Nj]; [congruence|]. intros B1. apply Ov.
      exists i, j, k', k1. cbn [q_work]. rewrite !nth_put by exact Li. rewrite Nat.eqb_refl. destruct (Nat.eqb_spec j i); [contradiction|]. auto.
    - intros Rs. apply R. apply rest_nth. intros j k1 Ej. destruct (Nat.eq_dec j i) as [->|Nj]; [congruence|]. apply (proj1 (rest_nth _) Rs j). cbn [q_work]. rewrite nth_put by exact Li. destruct (Nat.eqb_spec j i); [contradiction|exact Ej]. }
  destruct (k_place k) as [|v w|v w|w|] eqn:Pk; cbn [cond] in Ck; unfold cond in Ck; rewrite ?Pk in Ck.
  - assert (Nb : ~ busy k) by (unfold busy; rewrite Pk; auto). destruct (k_items k) as [|it r] eqn:Ei; [exact S0|].
    assert (Sr : forall pl an, sane (mkwork r pl an)) by (intros pl an; unfold sane in *; cbn [k_items]; rewrite Ei in Sk; inversion Sk; assumption).
    assert (Nidle : forall an, busy (mkwork r PIdle an) -> False) by (intros an X; exact X). assert (Ndead : forall an, busy (mkwork r PDead an) -> False) by (intros an X; exact X).
    destruct it as [w|v|].
    + destruct (negb (q_open h)); [exact S0|]. destruct (negb (zlen (q_status h) =? 1)); [apply Id; auto; intros X; destruct (Nidle _ X)|]. destruct w as [|x w]; [apply Id; auto; intros X; destruct (Ndead _ X)|].
      destruct ((x =? STATUS_ON) || (x =? STATUS_OFF))%bool eqn:Ex; [|apply Id; auto; intros X; destruct (Nidle _ X)]. apply Id; auto. intros _ A. cbn [cond k_place]. unfold cond. cbn [k_place]. split; [exact A|]. split; [|exists w; reflexivity].
      apply orb_prop in Ex as [E|E]; apply Z.eqb_eq in E; [left|right]; exact E.
    + apply Id; auto. intros _ A. unfold cond. cbn [k_place]. split; [exact A|]. split; [|exact I]. unfold sane in Sk. rewrite Ei in Sk. inversion Sk; assumption.
    + apply Id; auto.
  - assert (Bk : busy k) by (unfold busy; rewrite Pk; exact I). destruct Ck as (A & Ov & F). apply Go; auto. { unfold cond. cbn [k_place q_status]. auto. } intros X. destruct X. exact I.
  - assert (Bk : busy k) by (unfold busy; rewrite Pk; exact I). destruct Ck as (A & Ov & F). apply Go; auto.
    + unfold cond. cbn [k_place]. destruct w as [w|]; [|exact I]. destruct F as (l & ->). exists v, l. cbn [q_status q_lamp]. auto.
    + intros _. unfold agree. cbn [q_status q_lamp]. rewrite A. apply agree_on; auto.
  - assert (Bk : busy k) by (unfold busy; rewrite Pk; exact I). destruct Ck as (v & l & -> & Ov & A & L). apply Go; auto. { exact I. } intros _. unfold agree. cbn [q_status q_lamp]. apply agree_on; auto.
  - exact S0.
Qed.
Lemma run_steady sched : forall h, steady h -> (forall n, ~ overlap (hall_run h (firstn n sched))) -> steady (hall_run h sched).
Proof.
  induction sched as [|i sched IH]; intros h S0 O; [exact S0|]. cbn [hall_run fold_left]. apply IH.
  - apply step_steady; [exact S0|exact (O 0%nat)|exact (O 1%nat)].
  - intros n. exact (O (S n)).
Qed.
Lemma L_C119_alone : forall h sched, Forall sane (q_work h) -> at_rest h -> lamp_shows (Some (q_status h)) (q_lamp h) ->
  (forall n, ~ overlap (hall_run h (firstn n sched))) -> at_rest (hall_run h sched) ->
  lamp_shows (Some (q_status (hall_run h sched))) (q_lamp (hall_run h sched)).
Proof.
  intros h sched Sa Rh A O Rs. assert (S0 : steady h).
  { split; [|intros _; exact A]. intros i k E. split; [apply cond_idle; exact (proj1 (rest_nth h) Rh i k E)|]. apply (proj1 (Forall_forall _ _) Sa). apply nth_error_In in E. exact E. }
  exact (proj2 (run_steady sched h S0 O) Rs).
Qed.
Lemma L_C119_race_refuted : forall y lamp x, on_off x -> exists sched z,
  on_off z /\ z <> x /\
  hall_run (mkhall [y] lamp true [mkwork [IReq [x]] PIdle []; mkwork [IReq [z]] PIdle []]) sched =
  mkhall [x] (colour z) true [mkwork [] PIdle [true]; mkwork [] PIdle [true]] /\
  ~ lamp_shows (Some [x]) (colour z).
Proof.
  intros y lamp x O. exists [0; 0; 1; 1; 0; 1; 1; 0]%nat. destruct O as [-> | ->]; [exists 0x31|exists 0x30]; (split; [unfold on_off; auto|]; split; [discriminate|]; split; [reflexivity|]);
  intros (a & l & E & H); injection E as <- <-; destruct H as [(H & C)|(H & C)]; discriminate.
Qed.
Lemma L_C119_stop_refuted : forall y lamp, exists sched,
  let h := mkhall [y] lamp true [mkwork [ISwitch 0x31; IClose] PIdle []; mkwork [IReq [0x30]] PIdle []] in
  (forall n, ~ overlap (hall_run h (firstn n sched))) /\
  hall_run h sched = mkhall [0x30] [255; 255; 255] false [mkwork [] PIdle []; mkwork [] PIdle [true]].
Proof.
  intros y lamp. exists [0; 0; 0; 1; 1; 1; 1; 0]%nat. cbv zeta. split; [|reflexivity].
  assert (D : forall a b st l op, (busy a -> False) \/ (busy b -> False) -> ~ overlap (mkhall st l op [a; b])).
  { intros a b st l op H (i & j & p & q & N & P & Q & Bp & Bq). cbn [q_work] in *. destruct i as [|[|i]], j as [|[|j]]; cbn in P, Q; try congruence; try (destruct i; discriminate); try (destruct j; discriminate).
    - injection P as <-. injection Q as <-. tauto.
    - injection P as <-. injection Q as <-. tauto. }
  intros n. do 8 (destruct n as [|n]; [apply D; cbn; auto|]). rewrite firstn_all2 by (cbn; lia). apply D. cbn. auto.
Qed.
Definition holds (v : Z) (k : worker) : Prop :=
  asks_for v k /\ match k_place k with PIdle | PDead => True | PSet x w | PLed x w => x = v /\ fits v w | PStore w => exists l, w = v :: l end.
Definition untouched_by (k : worker) : Prop := match k_place k with PLed _ _ | PStore _ => False | _ => True end.
Definition leaning (v : Z) (h : hall) : Prop :=
  (forall i k, nth_error (q_work h) i = Some k -> holds v k) /\
  ((agree h /\ forall i k, nth_error (q_work h) i = Some k -> untouched_by k) \/
   ((exists l, q_status h = v :: l) /\ (q_lamp h = colour v \/ exists i k x w, nth_error (q_work h) i = Some k /\ k_place k = PLed x w))).
Lemma step_leaning v h i : leaning v h -> leaning v (hall_step h i).
Proof.
  intros (C & D). pose proof (conj C D : leaning v h) as S0. unfold hall_step. destruct (nth_error (q_work h) i) as [k|] eqn:Ek; [|exact S0].
  assert (Li : (i < length (q_work h))%nat) by (apply nth_error_Some; congruence). destruct (C i k Ek) as (Ak & Pk0).
  assert (Hold : forall k', holds v k' -> forall j k1, nth_error (put_work i k' (q_work h)) j = Some k1 -> holds v k1).
  { intros k' H j k1. rewrite nth_put by exact Li. destruct (Nat.eqb_spec j i) as [->|N]; [intros [= <-]; exact H|apply C]. }
  (* a step that only takes the next item *)
  assert (Id : forall op k', k_place k = PIdle -> holds v k' -> untouched_by k' -> leaning v (mkhall (q_status h) (q_lamp h) op (put_work i k' (q_work h)))).
  { intros op k' Pk H U. split; [cbn [q_work]; apply Hold; exact H|]. cbn [q_work q_status q_lamp]. destruct D as [(A & D)|(A & D)].
    - left. split; [exact A|]. intros j k1. rewrite nth_put by exact Li. destruct (Nat.eqb_spec j i) as [->|N]; [intros [= <-]; exact U|apply D].
    - right. split; [exact A|]. destruct D as [D|(j & k1 & x & w & E & P)]; [left; exact D|]. right. exists j, k1, x, w. rewrite nth_put by exact Li. destruct (Nat.eqb_spec j i) as [->|N]; [congruence|auto]. }
  destruct (k_place k) as [|x w|x w|w|] eqn:Pk.
  - destruct (k_items k) as [|it r] eqn:Ei; [exact S0|]. unfold asks_for in Ak. rewrite Ei in Ak. inversion Ak as [|? ? A1 A2]; subst.
    assert (Hi : forall an, holds v (mkwork r PIdle an)) by (intros an; split; [exact A2|exact I]). assert (Hd : forall an, holds v (mkwork r PDead an)) by (intros an; split; [exact A2|exact I]).
    destruct it as [w|x|].
    + destruct (negb (q_open h)); [exact S0|]. destruct (negb (zlen (q_status h) =? 1)); [apply Id; [reflexivity|auto|exact I]|]. destruct A1 as (l & ->).
      destruct ((v =? STATUS_ON) || (v =? STATUS_OFF))%bool; [|apply Id; [reflexivity|auto|exact I]]. apply Id; [reflexivity| |exact I]. split; [exact A2|]. cbn [k_place]. split; [reflexivity|exists l; reflexivity].
    + subst x. apply Id; [reflexivity| |exact I]. split; [exact A2|]. cbn [k_place fits]. auto.
    + apply Id; [reflexivity|apply Hi|exact I].
  - destruct Pk0 as (-> & F). split; [cbn [q_work]; apply Hold; split; [exact Ak|cbn [k_place]; auto]|]. right. cbn [q_work q_status q_lamp]. split; [eexists; reflexivity|]. right. exists i. do 3 eexists. rewrite nth_put by exact Li. rewrite Nat.eqb_refl. split; reflexivity.
  - destruct Pk0 as (-> & F). split. { cbn [q_work]; apply Hold; split; [exact Ak|]. cbn [k_place]. destruct w as [w|]; [exact F|exact I]. } right. cbn [q_work q_status q_lamp]. split; [|left; reflexivity].
    destruct D as [(_ & D)|(D & _)]; [specialize (D i k Ek); unfold untouched_by in D; rewrite Pk in D; destruct D|exact D].
  - destruct Pk0 as (l & ->). split; [cbn [q_work]; apply Hold; split; [exact Ak|exact I]|]. right. cbn [q_work q_status q_lamp]. split; [eexists; reflexivity|].
    destruct D as [(_ & D)|(_ & D)]; [specialize (D i k Ek); unfold untouched_by in D; rewrite Pk in D; destruct D|]. destruct D as [D|(j & k1 & x & w & E & P)]; [left; exact D|]. right. exists j, k1, x, w. rewrite nth_put by exact Li. destruct (Nat.eqb_spec j i) as [->|N]; [congruence|auto].
  - exact S0.
Qed.
Lemma L_C119_equal_partial : forall v h sched, on_off v -> Forall (asks_for v) (q_work h) -> at_rest h -> lamp_shows (Some (q_status h)) (q_lamp h) ->
  at_rest (hall_run h sched) -> lamp_shows (Some (q_status (hall_run h sched))) (q_lamp (hall_run h sched)).
Proof.
  intros v h sched O Sa Rh A Rs. assert (S0 : leaning v h).
  { split.
    - intros i k E. split; [apply (proj1 (Forall_forall _ _) Sa); apply nth_error_In in E; exact E|]. pose proof (proj1 (rest_nth h) Rh i k E) as B. unfold busy in B. destruct (k_place k); tauto.
    - left. split; [exact A|]. intros i k E. pose proof (proj1 (rest_nth h) Rh i k E) as B. unfold busy, untouched_by in *. destruct (k_place k); tauto. }
  assert (S1 : leaning v (hall_run h sched)). { clear Rs A Rh Sa. revert h S0. induction sched as [|i sched IH]; intros h S0; [exact S0|]. cbn [hall_run fold_left]. apply IH. apply step_leaning. exact S0. }
  destruct S1 as (_ & [(D & _)|((l & E) & D)]); [exact D|]. rewrite E. apply agree_on; [exact O|]. destruct D as [D|(i & k & x & w & Ek & P)]; [exact D|].
  exfalso. apply (proj1 (rest_nth _) Rs i k Ek). unfold busy. rewrite P. exact I.
Qed.
(** One worker alone serves a request as the light of C72 does. *)
Lemma L_C119_served : forall d lamp w r, w <> [] \/ length d <> 1%nat ->
  let h := hall_run (mkhall d lamp true [mkwork (IReq w :: r) PIdle []]) in
  exists n a lamp', h (repeat 0%nat n) = mkhall (light d [w]) lamp' true [mkwork r PIdle [a]] /\
  (a = true <-> length d = 1%nat /\ exists x l, w = x :: l /\ on_off x) /\ (a = false -> lamp' = lamp).
Proof.
  intros d lamp w r H h. unfold h. destruct (Z.eqb_spec (zlen d) 1) as [E|E].
  - assert (exists y, d = [y]) as (y & ->) by (unfold zlen in E; destruct d as [|y [|z d]]; cbn in E; try lia; eauto). destruct w as [|x w]; [destruct H; [congruence|cbn in *; lia]|].
    unfold light. destruct (on_offb x) eqn:Ex.
    + exists 4%nat, true, (colour x). unfold hall_run. cbn [repeat fold_left]. unfold hall_step at 4. cbn [q_work nth_error k_place k_items q_open negb q_status zlen length Z.of_nat Pos.of_succ_nat Z.eqb Pos.eqb].
      unfold on_offb in Ex. change STATUS_ON with 0x30. change STATUS_OFF with 0x31. rewrite Ex. split; [reflexivity|]. split; [|discriminate]. split; [|reflexivity]. intros _. split; [reflexivity|]. exists x, w. split; [reflexivity|].
      apply orb_prop in Ex as [E1|E1]; apply Z.eqb_eq in E1; [left|right]; exact E1.
    + exists 1%nat, false, lamp. unfold hall_run. cbn [repeat fold_left]. unfold hall_step. cbn [q_work nth_error k_place k_items q_open negb q_status zlen length Z.of_nat Pos.of_succ_nat Z.eqb Pos.eqb].
      unfold on_offb in Ex. change STATUS_ON with 0x30. change STATUS_OFF with 0x31. rewrite Ex. split; [reflexivity|]. split; [|auto]. split; [discriminate|]. intros (_ & x' & l & W & O). injection W as <- <-. destruct O as [-> | ->]; discriminate.
  - exists 1%nat, false, lamp. unfold hall_run. cbn [repeat fold_left]. unfold hall_step. cbn [q_work nth_error k_place k_items q_open negb q_status]. destruct (Z.eqb_spec (zlen d) 1); [contradiction|]. cbn [negb].
    split; [f_equal; unfold zlen in E; destruct d as [|y [|z d]]; cbn [light]; try reflexivity; cbn in E; lia|]. split; [|auto]. split; [discriminate|]. intros (L & _). destruct E. unfold zlen. rewrite L. reflexivity.
Qed.
Lemma L_C119_closed : forall h sched, q_open h = false -> at_rest h -> Forall (fun k => Forall (fun i => match i with ISwitch _ => False | _ => True end) (k_items k)) (q_work h) ->
  let h' := hall_run h sched in q_status h' = q_status h /\ q_lamp h' = q_lamp h /\ q_open h' = false /\ map k_ans (q_work h') = map k_ans (q_work h).
Proof.
  intros h sched. cbv zeta. revert h. induction sched as [|i sched IH]; intros h O R F; [auto|]. cbn [hall_run fold_left].
  assert (E : exists l, hall_step h i = mkhall (q_status h) (q_lamp h) false l /\ map k_ans l = map k_ans (q_work h) /\ at_rest (mkhall (q_status h) (q_lamp h) false l) /\ Forall (fun k => Forall (fun i => match i with ISwitch _ => False | _ => True end) (k_items k)) l).
  { assert (S0 : h = mkhall (q_status h) (q_lamp h) false (q_work h)) by (destruct h; cbn in *; congruence).
    assert (Stay : exists l, h = mkhall (q_status h) (q_lamp h) false l /\ map k_ans l = map k_ans (q_work h) /\ at_rest (mkhall (q_status h) (q_lamp h) false l) /\ Forall (fun k => Forall (fun i => match i with ISwitch _ => False | _ => True end) (k_items k)) l).
    { exists (q_work h). split; [exact S0|]. split; [reflexivity|]. split; [exact R|exact F]. }
    unfold hall_step. destruct (nth_error (q_work h) i) as [k|] eqn:Ek; [|exact Stay]. pose proof (nth_error_In _ _ Ek) as Ik. pose proof (R k Ik) as Nb. pose proof (proj1 (Forall_forall _ _) F k Ik) as Fk. cbv beta in Fk. unfold busy in Nb.
    destruct (k_place k); try (destruct (Nb Logic.I)); [|exact Stay]. destruct (k_items k) as [|[w|v|] r]; [exact Stay|rewrite O; exact Stay|inversion Fk; contradiction|].
    exists (put_work i (mkwork r PIdle (k_ans k)) (q_work h)). split; [reflexivity|]. assert (Li : (i < length (q_work h))%nat) by (apply nth_error_Some; congruence).
    destruct (nth_error_split _ _ Ek) as (l1 & l2 & El & Ll). assert (Ep : put_work i (mkwork r PIdle (k_ans k)) (q_work h) = l1 ++ mkwork r PIdle (k_ans k) :: l2).
    { unfold put_work. rewrite El, <- Ll. rewrite firstn_app, Nat.sub_diag, firstn_all. cbn [firstn]. rewrite app_nil_r. f_equal. f_equal. rewrite skipn_app, skipn_all2 by lia. replace (S (length l1) - length l1)%nat with 1%nat by lia. reflexivity. }
    rewrite Ep. rewrite El in *. split; [rewrite !map_app; reflexivity|]. split.
    - intros k1 I1. cbn [q_work] in I1. apply in_app_or in I1 as [I1|[<-|I1]]; [apply R; rewrite El; apply in_or_app; auto|exact (fun X => X)|apply R; rewrite El; apply in_or_app; right; right; exact I1].
    - apply Forall_app in F as (F1 & F2). inversion F2; subst. inversion Fk; subst. apply Forall_app. split; [exact F1|]. constructor; assumption. }
  destruct E as (l & E & A & R' & F'). rewrite E. destruct (IH (mkhall (q_status h) (q_lamp h) false l) eq_refl R' F') as (X1 & X2 & X3 & X4). cbn [q_status q_lamp q_work] in *. fold (hall_run (mkhall (q_status h) (q_lamp h) false l) sched). split; [exact X1|]. split; [exact X2|]. split; [exact X3|]. congruence.
Qed.
(** Whatever the driver does, lamp and output go together. *)
Lemma glow_said hw vs : forall k lamp said lamp' said', glow hw k lamp said vs = (lamp', said') ->
  exists new, said' = said ++ new /\ match new with [] => lamp' = lamp | _ => as_said said' lamp' end.
Proof.
  induction vs as [|v vs IH]; intros k lamp said lamp' said' H; cbn [glow] in H.
  - injection H as <- <-. exists []. split; [symmetry; apply app_nil_r|reflexivity].
  - destruct (hw k); [|exact (IH _ _ _ _ _ H)]. destruct (IH _ _ _ _ _ H) as (new & E & M). exists (word v :: new). split; [rewrite E, <- app_assoc; reflexivity|].
    destruct new as [|x new]; [|exact M]. rewrite app_nil_r in E. subst said' lamp'. exists said. unfold word, colour. destruct (v =? STATUS_ON); [left|right]; split; reflexivity.
Qed.
Lemma L_C119_line : forall hw es s s' rs, sense_run hw s es = (s', rs) ->
  exists new, z_said s' = z_said s ++ new /\ match new with [] => z_lamp s' = z_lamp s | _ => as_said (z_said s') (z_lamp s') end.
Proof.
  intros hw es. induction es as [|e es IH]; intros s s' rs H; cbn [sense_run] in H.
  - injection H as <- <-. exists []. split; [symmetry; apply app_nil_r|reflexivity].
  - destruct (sense_step hw s e) as [s1 a] eqn:E. destruct (sense_run hw s1 es) as [s2 l] eqn:R. injection H as <- <-.
    assert (G : exists new, z_said s1 = z_said s ++ new /\ match new with [] => z_lamp s1 = z_lamp s | _ => as_said (z_said s1) (z_lamp s1) end).
    { destruct e as [| |m]; unfold sense_step in E.
      1,2: match type of E with context[glow ?a ?b ?c ?d ?f] => destruct (glow a b c d f) as [lamp said] eqn:GL end;
        injection E as <- <-; exact (glow_said _ _ _ _ _ _ _ GL).
      destruct (a_received _ _ m) as [a0 r0]. match type of E with context[glow ?a ?b ?c ?d ?f] => destruct (glow a b c d f) as [lamp said] eqn:GL end.
      injection E as <- <-; exact (glow_said _ _ _ _ _ _ _ GL). }
    destruct G as (n1 & E1 & M1). destruct (IH _ _ _ R) as (n2 & E2 & M2). exists (n1 ++ n2). split; [rewrite E2, E1, app_assoc; reflexivity|].
    destruct n2 as [|x n2]; [|destruct n1; exact M2]. rewrite app_nil_r in *. rewrite M2, E2. exact M1.
Qed.
