(** Lemmas for C50 and C66: exceptions of the hand-over, and absence of deadlocks. *)
From Verif Require Import PyBase EsvM MsgM NodeM TidM PostM SpecPost WireP TidP PostP.

(** ** C50: the hand-over raises *)
Lemma L_C50_race_refuted : exists sched s' evs m, one_poster sched /\ (forall i, ~ In (i, ARaise) sched) /\
  prun (new_post 2 [0; 0]) sched = (s', evs) /\ response m /\ In (EArrive 1 m) evs /\ In (ERaise 1) evs.
Proof.
  exists (to_sleep 0 0 ++ (1%nat, ARecv (rsp 1)) :: st 1 4 ++ st 0 5 ++ (0%nat, APost 1) :: st 1 2). eexists _, _, (rsp 1).
  split; [|split; [|split; [vm_compute; reflexivity|]]].
  - intros i a I. cbn in I. repeat (destruct I as [E|I]; [injection E as <- <-; auto; discriminate|]). contradiction.
  - intros i I. cbn in I. repeat (destruct I as [E|I]; [discriminate|]). contradiction.
  - split; [intros I; cbn in I; repeat (destruct I as [I|I]; [discriminate|]); contradiction|]. inn.
Qed.
Lemma kreq_put l : forall p c j, (k_req (nth p l (mkcell None None)) <> None -> k_req c <> None) ->
  k_req (nth j l (mkcell None None)) <> None -> k_req (nth j (put l p c) (mkcell None None)) <> None.
Proof.
  induction l as [|y l IH]; intros p c j H N; [exact N|]. destruct p, j; cbn [put nth] in *; auto.
Qed.
Definition rinv (s : pst) : Prop :=
  (p_last s < length (p_cells s))%nat /\
  forall j p, nth_error (p_pcs s) j = Some p ->
    match p with
    | PReqAt _ p' | RReq1 _ p' => p' = p_last s
    | RResp1 _ p' | RReq2 _ p' => p' = p_last s /\ k_req (cur s) <> None
    | RLast2 _ => k_req (cur s) <> None
    | _ => True
    end.
Lemma rinv_step s k a s' ev : rinv s -> pstep s k a = Some (s', ev) -> a <> ARaise ->
  match a with APost _ => others_idle s k | _ => True end ->
  rinv s' /\ forall i, ~ In (ERaise i) ev.
Proof.
  intros (L & R) H NR O.
  assert (Keep : forall s1 x, p_last s1 = p_last s -> length (p_cells s1) = length (p_cells s) -> (k_req (cur s) <> None -> k_req (cur s1) <> None) ->
    (p_pcs s1 = put (p_pcs s) k x \/ exists w, p_pcs s1 = put (wake w (p_pcs s)) k x) ->
    match x with
    | PReqAt _ p' | RReq1 _ p' => p' = p_last s
    | RResp1 _ p' | RReq2 _ p' => p' = p_last s /\ k_req (cur s) <> None
    | RLast2 _ => k_req (cur s) <> None
    | _ => True
    end -> rinv s1).
  { intros s1 x E1 E2 E3 E4 X. split; [now rewrite E1, E2|]. intros j p Y.
    assert (Y' : p = x \/ exists p0, nth_error (p_pcs s) j = Some p0 /\ (p = p0 \/ exists q, p = PWake q true)).
    { destruct E4 as [E4|(w & E4)]; rewrite E4, nth_put in Y; destruct (Nat.eqb_spec j k).
      - destruct (nth_error (p_pcs s) k); [left; congruence|discriminate].
      - right. eauto.
      - destruct (nth_error (wake w (p_pcs s)) k); [left; congruence|discriminate].
      - right. rewrite nth_wake in Y. destruct (nth_error (p_pcs s) j) as [p0|]; [|discriminate]. exists p0. split; [reflexivity|].
        destruct p0; try (left; congruence). destruct (Nat.eqb j w); [right; exists q; congruence|left; congruence]. }
    rewrite E1. destruct Y' as [->|(p0 & Y0 & [->|(q & ->)])]; [| |exact I].
    - destruct x; intuition.
    - specialize (R j p0 Y0). destruct p0; intuition. }
  unfold pstep in H. destruct (nth_error (p_pcs s) k) as [pk|] eqn:Ek; [|discriminate]. pose proof (R k pk Ek) as Rk.
  destruct pk, a; try discriminate H; try congruence;
    repeat match type of H with context[match ?c with _ => _ end] => destruct c eqn:?; try discriminate H end; injection H as <- <-;
    try (exfalso; destruct Rk as (-> & Rk); unfold cur in Rk; congruence);
    (split; [|intros i Y; cbn in Y; intuition discriminate]);
    try (eapply Keep; cbn [p_pcs p_last p_cells]; [reflexivity|reflexivity|intros Y; exact Y|left; reflexivity|]; try exact I; try reflexivity; try exact Rk; try (split; [exact Rk|]); try congruence).
  - (* post *) split; cbn [p_last p_cells p_pcs]; [rewrite app_length; cbn; lia|]. intros j p Y. rewrite nth_put in Y. destruct (Nat.eqb_spec j k) as [->|J].
    + rewrite Ek in Y. assert (p = PReq q) by congruence. subst p. exact I.
    + rewrite (O j p J Y). exact I.
  - eapply Keep; cbn [p_pcs p_last p_cells]; [reflexivity|apply length_put| |left; reflexivity|exact I]. apply kreq_put. discriminate.
  - subst p. unfold cur. congruence.
  - apply Rk.
  - split; [reflexivity|exact Rk].
  - eapply Keep; cbn [p_pcs p_last p_cells]; [reflexivity|apply length_put| |left; reflexivity|exact I]. apply kreq_put. auto.
  - eapply Keep; cbn [p_pcs p_last p_cells]; [reflexivity|reflexivity| |right; eexists; reflexivity|exact I]. auto.
Qed.
Lemma L_C50_orderly_partial : forall n l sched s' evs, orderly (fun _ => false) (new_post n l) sched -> (forall i, ~ In (i, ARaise) sched) ->
  prun (new_post n l) sched = (s', evs) -> forall i, ~ In (ERaise i) evs.
Proof.
  intros n l sched s' evs. assert (R : rinv (new_post n l)).
  { split; [cbn; lia|]. intros j p H. cbn in H. apply nth_error_In, repeat_spec in H. subst p. exact I. }
  revert R. generalize (new_post n l). intros s. revert s evs. induction sched as [|[k a] sched IH]; intros s evs R O NR H i; cbn [prun orderly] in *.
  - injection H as <- <-. auto.
  - assert (NR' : forall i, ~ In (i, ARaise) sched) by (intros j Y; apply (NR j); now right).
    destruct (pstep s k a) as [[s1 ev]|] eqn:E; [|now apply (IH s)]. destruct O as (O1 & _ & O3). destruct (prun s1 sched) as [s2 evs2] eqn:E2. assert (s2 = s' /\ evs = ev ++ evs2) as (-> & ->) by (split; congruence).
    destruct (rinv_step s k a s1 ev R E) as (R1 & Ne); auto. { intros ->. apply (NR k). now left. }
    intros Y. apply in_app_iff in Y. destruct Y as [Y|Y]; [now apply (Ne i)|]. eapply IH; eauto.
Qed.

(** ** C66: the lock, and no deadlock *)
Definition holds (p : pc) : bool := match p with PWait _ | PRel _ | RNotify _ | RRel _ => true | _ => false end.
Definition lockinv (s : pst) : Prop := forall j p, nth_error (p_pcs s) j = Some p -> (holds p = true <-> p_lock s = Some j).
Definition lockown (s : pst) : Prop := forall i, p_lock s = Some i -> exists p, nth_error (p_pcs s) i = Some p.
Lemma lock_step s k a s' ev : lockinv s -> lockown s -> pstep s k a = Some (s', ev) -> lockinv s' /\ lockown s'.
Proof.
  intros L W H. 
  assert (Gen : forall s1 x, (p_pcs s1 = put (p_pcs s) k x \/ exists w, p_pcs s1 = put (wake w (p_pcs s)) k x) ->
    (holds x = true <-> p_lock s1 = Some k) -> (p_lock s1 = p_lock s \/ p_lock s = None /\ p_lock s1 = Some k \/ p_lock s = Some k /\ p_lock s1 = None) ->
    (exists pk, nth_error (p_pcs s) k = Some pk) -> lockinv s1 /\ lockown s1).
  { intros s1 x Ps Hx Lk (pk & Ek). split.
    - intros j p Y. assert (Y' : (j = k /\ p = x) \/ j <> k /\ exists p0, nth_error (p_pcs s) j = Some p0 /\ holds p0 = holds p).
      { destruct (Nat.eq_dec j k) as [->|J].
        - left. split; [reflexivity|]. destruct Ps as [Ps|(w & Ps)]; rewrite Ps, nth_put, Nat.eqb_refl in Y; [rewrite Ek in Y; congruence|destruct (nth_error (wake w (p_pcs s)) k); congruence].
        - right. split; [exact J|]. destruct Ps as [Ps|(w & Ps)]; rewrite Ps, nth_put in Y; destruct (Nat.eqb_spec j k); try contradiction; [eauto|].
          rewrite nth_wake in Y. destruct (nth_error (p_pcs s) j) as [p0|]; [|discriminate]. exists p0. split; [reflexivity|].
          destruct p0; try congruence. destruct (Nat.eqb j w); injection Y as <-; reflexivity. }
      destruct Y' as [(-> & ->)|(J & p0 & Y0 & E)]; [exact Hx|]. rewrite <- E, (L j p0 Y0).
      destruct Lk as [->|[(-> & ->)|(-> & ->)]]; [tauto|split; congruence|split; congruence].
    - intros i E. assert (Len : length (p_pcs s1) = length (p_pcs s)).
      { destruct Ps as [->|(w & ->)]; rewrite length_put; [reflexivity|]. unfold wake. destruct (nth_error (p_pcs s) w) as [[]|]; try reflexivity. apply length_put. }
      assert (i < length (p_pcs s1))%nat. { rewrite Len. apply nth_error_Some. destruct Lk as [X|[(_ & X)|(_ & X)]]; rewrite X in E.
        - destruct (W i E) as (p & ->). discriminate.
        - assert (i = k) by congruence. subst i. congruence.
        - discriminate. }
      destruct (nth_error (p_pcs s1) i) eqn:F; [eauto|]. apply nth_error_None in F. lia. }
  unfold pstep in H. destruct (nth_error (p_pcs s) k) as [pk|] eqn:Ek; [|discriminate]. pose proof (L k pk Ek) as Rk.
  destruct pk, a; try discriminate H; cbn [holds] in Rk;
    repeat match type of H with context[match ?c with _ => _ end] => destruct c eqn:?; try discriminate H end; injection H as <- <-;
    (eapply Gen; cbn [p_pcs p_lock]; [first [left; reflexivity|right; eexists; reflexivity]| |tauto|eauto]); cbn [holds]; try tauto; try (split; congruence).
Qed.
Lemma lock_run sched : forall s s' evs, lockinv s -> lockown s -> prun s sched = (s', evs) -> lockinv s' /\ lockown s'.
Proof.
  induction sched as [|[k a] sched IH]; intros s s' evs L W H; cbn [prun] in H; [injection H as <- <-; auto|].
  destruct (pstep s k a) as [[s1 ev]|] eqn:E; [|eauto]. destruct (prun s1 sched) eqn:E2. destruct (lock_step s k a s1 ev L W E). assert (p = s') by congruence. subst p. eauto.
Qed.
Lemma lock_new n l : lockinv (new_post n l) /\ lockown (new_post n l).
Proof. split; [|discriminate]. intros j p H. cbn in H. apply nth_error_In, repeat_spec in H. subst p. cbn. split; discriminate. Qed.
Lemma L_C66_lock : forall n l sched s' evs, prun (new_post n l) sched = (s', evs) ->
  forall i j p p', nth_error (p_pcs s') i = Some p -> nth_error (p_pcs s') j = Some p' -> in_lock p = true -> in_lock p' = true -> i = j.
Proof.
  intros n l sched s' evs H i j p p' I J P P'. destruct (lock_new n l) as (L & W). destruct (lock_run sched _ _ _ L W H) as (L' & _).
  apply (L' i p I) in P. apply (L' j p' J) in P'. congruence.
Qed.
Definition rank (p : pc) : nat :=
  match p with
  | PIdle => 0 | PReq _ => 12 | PReqAt _ _ => 11 | PTid _ => 10 | PSend _ => 9 | PAcq _ => 8 | PWait _ => 7 | PSleep _ => 6
  | PWake _ _ => 5 | PRel _ => 4 | PLast _ => 3 | PRet _ _ => 2 | PNone _ => 1
  | RPre _ => 12 | RLast1 _ => 11 | RReq1 _ _ => 10 | RResp1 _ _ => 9 | RLast2 _ => 8 | RReq2 _ _ => 7 | RTid _ _ => 6 | RLast3 _ => 5
  | RStore _ _ => 4 | RAcq _ => 3 | RNotify _ => 2 | RRel _ => 1
  end%nat.
Definition total (l : list pc) : nat := list_sum (map rank l).
Lemma total_put l : forall k p x, nth_error l k = Some p -> (total (put l k x) + rank p = total l + rank x)%nat.
Proof.
  unfold total. induction l as [|y l IH]; intros k p x H; [destruct k; discriminate|]. destruct k; cbn [nth_error put map list_sum fold_right] in *.
  - injection H as ->. change (fold_right Nat.add 0%nat (map rank l)) with (list_sum (map rank l)). lia.
  - specialize (IH k p x H). change (fold_right Nat.add 0%nat ?z) with (list_sum z) in *. unfold list_sum in *. lia.
Qed.
Lemma total_wake w l : (total (wake w l) <= total l)%nat.
Proof.
  unfold wake. destruct (nth_error l w) as [p|] eqn:E; [|lia]. destruct p; try lia. pose proof (total_put l w _ (PWake q true) E) as T. cbn [rank] in T. lia.
Qed.
Definition new_call (a : act) : bool := match a with APost _ | ARecv _ => true | _ => false end.
Lemma rank_step s k a s' ev : pstep s k a = Some (s', ev) -> new_call a = false -> (total (p_pcs s') < total (p_pcs s))%nat.
Proof.
  intros H N. unfold pstep in H. destruct (nth_error (p_pcs s) k) as [pk|] eqn:Ek; [|discriminate].
  destruct pk, a; try discriminate H; try discriminate N;
    repeat match type of H with context[match ?c with _ => _ end] => destruct c eqn:?; try discriminate H end; injection H as <- <-; cbn [p_pcs];
    try (match goal with |- (total (put _ _ ?x) < _)%nat => pose proof (total_put _ _ _ x Ek) as T; cbn [rank] in T; lia end).
  assert (Ew : nth_error (wake n (p_pcs s)) k = Some (RNotify m)) by (rewrite nth_wake, Ek; reflexivity).
  pose proof (total_put _ _ _ (RRel m) Ew) as T. cbn [rank] in T. pose proof (total_wake n (p_pcs s)). lia.
Qed.
Lemma total_zero l : total l = 0%nat -> forall j p, nth_error l j = Some p -> p = PIdle.
Proof.
  unfold total. induction l as [|y l IH]; intros H j p E; [destruct j; discriminate|]. cbn [map list_sum fold_right] in H. destruct j; cbn [nth_error] in E.
  - injection E as ->. destruct p; cbn [rank] in H; (reflexivity || lia).
  - apply (IH ltac:(unfold list_sum; lia) j p E).
Qed.
Lemma total_pos l : total l <> 0%nat -> exists j p, nth_error l j = Some p /\ p <> PIdle.
Proof.
  unfold total. induction l as [|y l IH]; intros H; [contradiction H; reflexivity|]. cbn [map list_sum fold_right] in H.
  destruct y eqn:Ey; try (exists 0%nat, y; rewrite Ey; split; [reflexivity|discriminate]).
  destruct IH as (j & p & E & N); [exact H|]. exists (S j), p. auto.
Qed.
Lemma progress s : lockinv s -> lockown s -> total (p_pcs s) <> 0%nat -> exists k a s' ev, (a = AStep \/ a = ASend true) /\ pstep s k a = Some (s', ev).
Proof.
  intros L W T. destruct (p_lock s) as [i|] eqn:E.
  - destruct (W i E) as (p & Ep). pose proof (proj2 (L i p Ep) E) as Hp.
    exists i, AStep. unfold pstep. rewrite Ep. destruct p; try discriminate Hp; try (do 2 eexists; split; [auto|reflexivity]).
    destruct (p_waiters s); do 2 eexists; split; auto.
  - destruct (total_pos _ T) as (k & p & Ep & N).
    assert (D : p = PIdle \/ (exists q, p = PSend q) \/ forall q, p <> PSend q) by (destruct p; eauto; right; right; discriminate).
    destruct D as [?|[(q & ->)|D]]; [contradiction| |].
    + exists k, (ASend true). unfold pstep. rewrite Ep. do 2 eexists. auto.
    + exists k, AStep. unfold pstep. rewrite Ep, E. destruct p; try congruence; try (exfalso; eapply D; reflexivity);
        repeat match goal with |- context[match ?c with _ => _ end] => destruct c end; do 2 eexists; split; auto.
Qed.
Lemma L_C66_no_deadlock : forall n l sched s' evs, prun (new_post n l) sched = (s', evs) -> exists sched2 s2 evs2,
  (forall i a, In (i, a) sched2 -> a = AStep \/ a = ASend true) /\ prun s' sched2 = (s2, evs2) /\
  forall j p, nth_error (p_pcs s2) j = Some p -> p = PIdle.
Proof.
  intros n l sched s' evs H. destruct (lock_new n l) as (L & W). destruct (lock_run sched _ _ _ L W H) as (L' & W'). clear L W H.
  remember (total (p_pcs s')) as t eqn:Et. revert s' Et L' W'. induction t as [t IH] using (well_founded_induction lt_wf). intros s -> L W.
  destruct (Nat.eq_dec (total (p_pcs s)) 0) as [Z|Z].
  - exists [], s, []. split; [contradiction|]. split; [reflexivity|]. now apply total_zero.
  - destruct (progress s L W Z) as (k & a & s1 & ev & A & E). assert (NC : new_call a = false) by (destruct A; subst a; reflexivity).
    destruct (lock_step s k a s1 ev L W E) as (L1 & W1).
    destruct (IH _ (rank_step s k a s1 ev E NC) s1 eq_refl L1 W1) as (sched2 & s2 & evs2 & Q & R & F).
    exists ((k, a) :: sched2), s2, (ev ++ evs2). split; [|split; [cbn [prun]; rewrite E, R; reflexivity|exact F]].
    intros i b [X|X]; [congruence|eauto].
Qed.
Lemma rank_le p : (rank p <= 12)%nat.
Proof. destruct p; cbn; lia. Qed.
Lemma total_le l : (total l <= 12 * length l)%nat.
Proof. unfold total. induction l as [|y l IH]; [reflexivity|]. cbn [map list_sum fold_right length]. pose proof (rank_le y). unfold list_sum in IH. lia. Qed.
Lemma L_C66_bounded : forall n l sched s' evs sched2, prun (new_post n l) sched = (s', evs) ->
  (forall i a, In (i, a) sched2 -> match a with APost _ | ARecv _ => False | _ => True end) ->
  (steps s' sched2 <= 12 * n)%nat.
Proof.
  intros n l sched s' evs sched2 H N. assert (Ln : length (p_pcs s') = n).
  { revert H. assert (Z : length (p_pcs (new_post n l)) = n) by (cbn; apply repeat_length). revert Z. generalize (new_post n l). intros s. revert s evs. clear. induction sched as [|[k a] sched IH]; intros s evs Z H; cbn [prun] in H; [congruence|].
    destruct (pstep s k a) as [[s1 ev]|] eqn:E; [|eauto]. destruct (prun s1 sched) eqn:E2. assert (p = s') by congruence. subst p. apply (IH s1 _) in E2; [exact E2|]. rewrite <- Z.
    unfold pstep in E. destruct (nth_error (p_pcs s) k) as [pk|] eqn:Ek; [|discriminate].
    destruct pk, a; try discriminate E;
    repeat match type of E with context[match ?c with _ => _ end] => destruct c eqn:?; try discriminate E end; injection E as <- <-; cbn [p_pcs]; rewrite length_put; try reflexivity.
    unfold wake. destruct (nth_error (p_pcs s) n0) as [[]|]; try reflexivity. apply length_put. }
  assert (T := total_le (p_pcs s')). rewrite Ln in T. enough (steps s' sched2 <= total (p_pcs s'))%nat by lia. clear - N.
  revert s'. induction sched2 as [|[k a] r IH]; intros s; cbn [steps]; [lia|].
  assert (N' : forall i a, In (i, a) r -> match a with APost _ | ARecv _ => False | _ => True end) by (intros; apply (N i); now right).
  destruct (pstep s k a) as [[s1 ev]|] eqn:E; [|auto]. pose proof (rank_step s k a s1 ev E). specialize (N k a (or_introl eq_refl)). specialize (IH N' s1).
  assert (new_call a = false) by (destruct a; reflexivity || contradiction). lia.
Qed.

(** ** C52: what remains *)
Lemma L_C52_sender_partial : forall (from_dest : msg -> Prop) n l sched s' evs, orderly early (new_post n l) sched ->
  prun (new_post n l) sched = (s', evs) ->
  forall e1 i q m e2, evs = e1 ++ EReturn i q (Some m) :: e2 ->
  (* only the destination answers during the call with the TID of the request *)
  (forall b j m', last_call e1 i q b -> In (EArrive j m') b -> response m' -> In (ESent i q (m_TID m')) b -> from_dest m') ->
  from_dest m.
Proof.
  intros F n l sched s' evs O H e1 i q m e2 E D. destruct (L_C53_orderly_partial n l sched s' evs O H e1 i q _ e2 E) as (b & LC & R & S & j & A). eauto.
Qed.

(** ** Deciding [orderly], for the examples *)
Fixpoint all_but {A} (f : A -> bool) (i : nat) (l : list A) : bool :=
  match l, i with
  | [], _ => true
  | _ :: r, O => forallb f r
  | x :: r, S i' => f x && all_but f i' r
  end.
Lemma all_but_spec {A} (f : A -> bool) l : forall i, all_but f i l = true -> forall j p, j <> i -> nth_error l j = Some p -> f p = true.
Proof.
  induction l as [|x l IH]; intros i H j p N E; [destruct j; discriminate|]. destruct i, j; cbn [all_but nth_error] in *.
  - contradiction.
  - rewrite forallb_forall in H. apply H. now apply nth_error_In in E.
  - apply andb_prop in H. destruct H. congruence.
  - apply andb_prop in H. destruct H as (_ & H). apply (IH i H j); auto.
Qed.
Fixpoint orderlyb (f : pc -> bool) (s : pst) (sched : list (nat * act)) : bool :=
  match sched with
  | [] => true
  | (i, a) :: r =>
      match pstep s i a with
      | None => orderlyb f s r
      | Some (s1, _) =>
          match a with APost _ => all_but (fun p => match p with PIdle => true | _ => false end) i (p_pcs s) | _ => true end &&
          all_but (fun p => negb (f p)) i (p_pcs s) && orderlyb f s1 r
      end
  end.
Lemma orderlyb_ok f sched : forall s, orderlyb f s sched = true -> orderly f s sched.
Proof.
  induction sched as [|[i a] r IH]; intros s H; cbn [orderly orderlyb] in *; [exact I|].
  destruct (pstep s i a) as [[s1 ev]|]; [|auto]. apply andb_prop in H. destruct H as (H & H3). apply andb_prop in H. destruct H as (H1 & H2). split; [|split; [|auto]].
  - destruct a; try exact I. intros j p J E. pose proof (all_but_spec _ _ _ H1 j p J E) as B. destruct p; (reflexivity || discriminate B).
  - intros j p J E. pose proof (all_but_spec _ _ _ H2 j p J E) as B. cbv beta in B. destruct (f p); [discriminate B|reflexivity].
Qed.
