(** Lemmas for C100. *)
From Verif Require Import PyBase EsvM MsgM NodeM TidM PostM SpecPost WireP TidP PostP RaceP SpecOwn.
Local Open Scope nat_scope.

(** Which message object a call has that has not been sent. *)
Definition act_q (p : pc) : option nat :=
  match p with PReq q | PReqAt q _ | PTid q | PSend q => Some q | _ => None end.
Definition plain (e : pev) : Prop := match e with ETid _ _ _ | ESent _ _ _ | EBegin _ _ => False | _ => True end.
(** The steps, as far as identifiers are concerned. *)
Inductive kind (s : pst) (k : nat) (s' : pst) (ev : list pev) : Prop :=
| KBegin q : q < length (p_msgs s) -> ev = [EBegin k q] -> nth_error (p_pcs s) k = Some PIdle ->
    p_pcs s' = put (p_pcs s) k (PReq q) -> p_msgs s' = p_msgs s -> p_tid s' = p_tid s -> kind s k s' ev
| KTid q : nth_error (p_pcs s) k = Some (PTid q) -> tid_of s q = 0%Z -> ev = [ETid k q (g_tid (fst (next_TID (mkmgr (p_tid s) []))))] ->
    p_pcs s' = put (p_pcs s) k (PSend q) -> p_tid s' = g_tid (fst (next_TID (mkmgr (p_tid s) []))) ->
    p_msgs s' = put (p_msgs s) q (p_tid s') -> kind s k s' ev
| KKeep q : nth_error (p_pcs s) k = Some (PTid q) -> tid_of s q <> 0%Z -> ev = [ETid k q (tid_of s q)] ->
    p_pcs s' = put (p_pcs s) k (PSend q) -> p_tid s' = p_tid s -> p_msgs s' = p_msgs s -> kind s k s' ev
| KSent q : nth_error (p_pcs s) k = Some (PSend q) -> ev = [ESent k q (tid_of s q)] ->
    p_pcs s' = put (p_pcs s) k (PAcq q) -> p_tid s' = p_tid s -> p_msgs s' = p_msgs s -> kind s k s' ev
| KMove p p' : nth_error (p_pcs s) k = Some p -> p_pcs s' = put (p_pcs s) k p' -> ev = [] -> (exists q, act_q p = Some q /\ act_q p' = Some q /\ (forall x, p' <> PSend x)) ->
    p_tid s' = p_tid s -> p_msgs s' = p_msgs s -> kind s k s' ev
| KRest : Forall plain ev -> (forall j p q, nth_error (p_pcs s') j = Some p -> act_q p = Some q -> nth_error (p_pcs s) j = Some p) ->
    p_tid s' = p_tid s -> p_msgs s' = p_msgs s -> kind s k s' ev.
Lemma put_rest (l l0 : list pc) k p' : act_q p' = None -> (forall j p q, nth_error l j = Some p -> act_q p = Some q -> nth_error l0 j = Some p) ->
  forall j p q, nth_error (put l k p') j = Some p -> act_q p = Some q -> nth_error l0 j = Some p.
Proof.
  intros A H j p q. rewrite nth_put. destruct (Nat.eqb j k); [|apply H]. destruct (nth_error l k); [|discriminate]. intros X Y. congruence.
Qed.
Lemma wake_rest w l j p q : nth_error (wake w l) j = Some p -> act_q p = Some q -> nth_error l j = Some p.
Proof.
  rewrite nth_wake. destruct (nth_error l j) as [[]|]; auto. destruct (Nat.eqb j w); auto. intros X Y. assert (p = PWake q0 true) by congruence. subst. discriminate.
Qed.
Lemma step_kind s k a s' ev : pstep s k a = Some (s', ev) -> kind s k s' ev.
Proof.
  intros E. unfold pstep in E. destruct (nth_error (p_pcs s) k) as [pk|] eqn:Ek; [|discriminate].
  destruct pk, a; try discriminate E;
    repeat match type of E with context[match ?c with _ => _ end] => let D := fresh "D" in destruct c eqn:D; try discriminate E end; injection E as <- <-;
    try (apply KRest; [repeat constructor| |reflexivity|reflexivity]; cbn [p_pcs]; intros j p' q'; apply put_rest; [reflexivity|]; first [exact (fun _ _ _ H _ => H) | exact (wake_rest _ _)]).
  all: try (eapply KMove; [exact Ek|reflexivity|reflexivity|eexists; repeat split; discriminate|reflexivity|reflexivity]).
  - apply (KBegin s k _ _ q); try reflexivity; try assumption. apply Nat.ltb_lt. assumption.
  - assert (Z : z = g_tid m) by (unfold next_TID in D0; injection D0 as <- <-; reflexivity).
    apply (KTid s k _ _ q); try assumption; try reflexivity; [now apply Z.eqb_eq| | |]; rewrite ?D0; cbn [fst p_tid p_msgs]; now rewrite ?Z.
  - apply (KKeep s k _ _ q); try reflexivity; try assumption. apply Z.eqb_neq. assumption.
  - apply (KSent s k _ _ q); try reflexivity; try assumption.
Qed.

(** How many message objects have an identifier. *)
Definition nz (l : list Z) : nat := length (filter (fun t => negb (t =? 0)%Z) l).
Lemma nz_put l q t : nth_error l q = Some 0%Z -> t <> 0%Z -> nz (put l q t) = S (nz l).
Proof.
  unfold nz. revert q. induction l as [|x l IH]; intros [|q] E T; try discriminate E; cbn in E.
  - injection E as ->. cbn. destruct (Z.eqb_spec t 0); [contradiction|]. reflexivity.
  - cbn. destruct (x =? 0)%Z; cbn; rewrite IH; auto.
Qed.
Lemma nz_bound l : nz l <= length l.
Proof. unfold nz. induction l as [|x l IH]; cbn; [lia|]. destruct (x =? 0)%Z; cbn; lia. Qed.
Lemma tid_nth s q : q < length (p_msgs s) -> nth_error (p_msgs s) q = Some (tid_of s q).
Proof. intros H. unfold tid_of. apply nth_error_nth'. exact H. Qed.

Record own_inv (s : pst) (e : list pev) : Prop := mkown {
  oi_count : p_tid s = Z.of_nat (nz (p_msgs s));
  oi_size : (Z.of_nat (length (p_msgs s)) <= 65535)%Z;
  oi_range : forall q t, nth_error (p_msgs s) q = Some t -> (0 <= t <= p_tid s)%Z;
  oi_inj : forall q q' t, nth_error (p_msgs s) q = Some t -> nth_error (p_msgs s) q' = Some t -> t <> 0%Z -> q = q';
  oi_sent : forall i q t, In (ESent i q t) e -> nth_error (p_msgs s) q = Some t /\ t <> 0%Z;
  oi_act : forall j p q, nth_error (p_pcs s) j = Some p -> act_q p = Some q -> q < length (p_msgs s) /\ In (EBegin j q) e;
  oi_send : forall j q, nth_error (p_pcs s) j = Some (PSend q) -> tid_of s q <> 0%Z;
  oi_begun : forall e1 i q t e2, e = e1 ++ ESent i q t :: e2 -> In (EBegin i q) e1 }.

Lemma snoc_split {A} (e e1 e2 : list A) x y : e ++ [x] = e1 ++ y :: e2 -> (exists e2', e = e1 ++ y :: e2' /\ e2 = e2' ++ [x]) \/ (e = e1 /\ x = y /\ e2 = []).
Proof.
  intros H. destruct (exists_last (l := y :: e2)) as (r & z & R); [discriminate|]. rewrite R in H. rewrite app_assoc in H. apply app_inj_tail in H. destruct H as [H ->].
  destruct r as [|y' r]; cbn in R.
  - injection R as -> ->. rewrite app_nil_r in H. auto.
  - injection R as -> ->. left. eauto.
Qed.
(** The last clause for one more event. *)
Lemma begun_more e x : (forall e1 i q t e2, e = e1 ++ ESent i q t :: e2 -> In (EBegin i q) e1) ->
  (forall i q t, x = ESent i q t -> In (EBegin i q) e) ->
  forall e1 i q t e2, e ++ [x] = e1 ++ ESent i q t :: e2 -> In (EBegin i q) e1.
Proof.
  intros H X e1 i q t e2 E. apply snoc_split in E. destruct E as [(e2' & -> & _)|(-> & -> & _)]; eauto.
Qed.
Lemma next_is t : (0 <= t < 65535)%Z -> g_tid (fst (next_TID (mkmgr t []))) = (t + 1)%Z.
Proof. intros H. unfold next_TID. cbn [g_tid fst]. destruct (Z.ltb_spec 0xFFFF (t + 1)); [lia|reflexivity]. Qed.
Lemma nz_full l q : nth_error l q = Some 0%Z -> nz l < length l.
Proof.
  unfold nz. revert q. induction l as [|x l IH]; intros [|q] E; try discriminate E; cbn in E.
  - injection E as ->. cbn. pose proof (nz_bound l). unfold nz in *. lia.
  - specialize (IH q E). cbn. destruct (x =? 0)%Z; cbn; lia.
Qed.
Lemma own_step s e k a s' ev : own_inv s e -> pstep s k a = Some (s', ev) -> own_inv s' (e ++ ev).
Proof.
  intros [C L R I S A F B] E. apply step_kind in E.
  destruct E as [q Q -> P Ps Ms Ts|q P T0 -> Ps Ts Ms|q P T0 -> Ps Ts Ms|q P -> Ps Ts Ms|p p' P Ps -> (q & Q & Q' & N) Ts Ms|PL PR Ts Ms].
  - constructor; rewrite ?Ms, ?Ts; auto.
    + intros i q' t H. apply in_app_or in H. destruct H as [H|[H|[]]]; [eauto|discriminate].
    + intros j p q'. rewrite Ps, nth_put. destruct (Nat.eqb_spec j k) as [->|].
      * rewrite P. intros X Y. assert (p = PReq q) by congruence. subst p. cbn in Y. assert (q' = q) by congruence. subst. split; [exact Q|]. apply in_or_app. right. now left.
      * intros X Y. destruct (A _ _ _ X Y). split; [assumption|]. apply in_or_app. now left.
    + intros j q'. rewrite Ps, nth_put. unfold tid_of. rewrite Ms. destruct (Nat.eqb_spec j k); [rewrite P; intros X; discriminate|apply F].
    + apply begun_more; [exact B|]. intros; discriminate.
  - destruct (A _ _ _ P eq_refl) as [Q BQ]. pose proof (tid_nth s q Q) as Hq. rewrite T0 in Hq. pose proof (nz_full _ _ Hq) as Nf.
    assert (N : p_tid s' = (p_tid s + 1)%Z) by (rewrite Ts; apply next_is; lia). clear Ts.
    assert (Nq : forall x, nth_error (p_msgs s') x = if Nat.eqb x q then Some (p_tid s + 1)%Z else nth_error (p_msgs s) x).
    { intros x. rewrite Ms, nth_put, N, Hq. reflexivity. }
    constructor.
    + rewrite Ms, nz_put; [rewrite N; lia|exact Hq|lia].
    + rewrite Ms, length_put. exact L.
    + intros x t. rewrite Nq, N. destruct (Nat.eqb x q); [intros X; assert (t = (p_tid s + 1)%Z) by congruence; lia|]. intros X. apply R in X. lia.
    + intros x y t. rewrite !Nq. destruct (Nat.eqb_spec x q) as [->|]; destruct (Nat.eqb_spec y q) as [->|]; auto; intros X Y T.
      * apply R in Y. assert (t = (p_tid s + 1)%Z) by congruence. lia.
      * apply R in X. assert (t = (p_tid s + 1)%Z) by congruence. lia.
      * exact (I _ _ _ X Y T).
    + intros i x t H. apply in_app_or in H. destruct H as [H|[H|[]]]; [|discriminate]. destruct (S _ _ _ H) as [X T]. split; [|exact T].
      rewrite Nq. destruct (Nat.eqb_spec x q) as [->|]; [congruence|exact X].
    + intros j p x. rewrite Ps, nth_put, Ms, length_put. destruct (Nat.eqb_spec j k) as [->|].
      * rewrite P. intros X Y. assert (p = PSend q) by congruence. subst p. cbn in Y. assert (x = q) by congruence. subst. split; [exact Q|]. apply in_or_app. now left.
      * intros X Y. destruct (A _ _ _ X Y). split; [assumption|]. apply in_or_app. now left.
    + assert (Tq : forall x, tid_of s x <> 0%Z \/ x = q -> tid_of s' x <> 0%Z).
      { intros x H. unfold tid_of. pose proof (Nq x) as Nx. destruct (Nat.eqb_spec x q) as [->|].
        - erewrite nth_error_nth; [|exact Nx]. lia.
        - destruct H as [H|H]; [|contradiction]. unfold tid_of in H. destruct (nth_error (p_msgs s) x) as [t|] eqn:X.
          + erewrite nth_error_nth; [|exact Nx]. erewrite nth_error_nth in H; [|exact X]. exact H.
          + exfalso. apply H. apply nth_overflow. apply nth_error_None. exact X. }
      intros j x. rewrite Ps, nth_put. destruct (Nat.eqb_spec j k) as [->|].
      * rewrite P. intros X. apply Tq. right. congruence.
      * intros X. apply Tq. left. exact (F _ _ X).
    + apply begun_more; [exact B|]. intros; discriminate.
  - destruct (A _ _ _ P eq_refl) as [Q BQ]. constructor; rewrite ?Ms, ?Ts; auto.
    + intros i x t H. apply in_app_or in H. destruct H as [H|[H|[]]]; [exact (S _ _ _ H)|discriminate].
    + intros j p x. rewrite Ps, nth_put. destruct (Nat.eqb_spec j k) as [->|].
      * rewrite P. intros X Y. assert (p = PSend q) by congruence. subst p. cbn in Y. assert (x = q) by congruence. subst. split; [exact Q|]. apply in_or_app. now left.
      * intros X Y. destruct (A _ _ _ X Y). split; [assumption|]. apply in_or_app. now left.
    + intros j x. rewrite Ps, nth_put. unfold tid_of in *. rewrite Ms. destruct (Nat.eqb_spec j k) as [->|]; [|apply F].
      rewrite P. intros X. assert (x = q) by congruence. subst. exact T0.
    + apply begun_more; [exact B|]. intros; discriminate.
  - destruct (A _ _ _ P eq_refl) as [Q BQ]. constructor; rewrite ?Ms, ?Ts; auto.
    + intros i x t H. apply in_app_or in H. destruct H as [H|[H|[]]]; [exact (S _ _ _ H)|]. assert (x = q) by congruence. assert (t = tid_of s q) by congruence. subst.
      split; [apply tid_nth; exact Q|]. exact (F _ _ P).
    + intros j p x. rewrite Ps, nth_put. destruct (Nat.eqb_spec j k) as [->|].
      * rewrite P. intros X Y. assert (p = PAcq q) by congruence. subst p. discriminate Y.
      * intros X Y. destruct (A _ _ _ X Y). split; [assumption|]. apply in_or_app. now left.
    + intros j x. rewrite Ps, nth_put. unfold tid_of in *. rewrite Ms. destruct (Nat.eqb_spec j k) as [->|]; [|apply F].
      rewrite P. intros X. discriminate.
    + apply begun_more; [exact B|]. intros i x t X. assert (x = q) by congruence. assert (i = k) by congruence. subst. exact BQ.
  - rewrite app_nil_r. destruct (A _ _ _ P Q) as [Q2 BQ]. constructor; rewrite ?Ms, ?Ts; auto.
    + intros j x y. rewrite Ps, nth_put. destruct (Nat.eqb_spec j k) as [->|]; [|apply A].
      rewrite P. intros X Y. assert (x = p') by congruence. subst x. assert (y = q) by congruence. subst. auto.
    + intros j x. rewrite Ps, nth_put. unfold tid_of in *. rewrite Ms. destruct (Nat.eqb_spec j k) as [->|]; [|apply F].
      rewrite P. intros X. exfalso. apply (N x). congruence.
  - assert (Np : forall i x t, ~ In (ESent i x t) ev). { intros i x t H. rewrite Forall_forall in PL. exact (PL _ H). }
    constructor; rewrite ?Ms, ?Ts; auto.
    + intros i x t H. apply in_app_or in H. destruct H as [H|H]; [exact (S _ _ _ H)|]. exfalso. exact (Np _ _ _ H).
    + intros j p x X Y. destruct (A _ _ _ (PR _ _ _ X Y) Y). split; [assumption|]. apply in_or_app. now left.
    + intros j x X. unfold tid_of in *. rewrite Ms. apply (F j). exact (PR _ _ _ X eq_refl).
    + intros e1 i x t e2 X. clear PL PR. revert e2 X. induction ev as [|y ev IH] using rev_ind; intros e2 X.
      * rewrite app_nil_r in X. exact (B _ _ _ _ _ X).
      * rewrite app_assoc in X. apply snoc_split in X. destruct X as [(e3 & X & _)|(_ & X & _)].
        -- apply (IH ltac:(intros i' x' t' H; apply (Np i' x' t'); apply in_or_app; now left) _ X).
        -- exfalso. apply (Np i x t). apply in_or_app. right. now left.
Qed.
Lemma own_run sched : forall s e s' evs, own_inv s e -> prun s sched = (s', evs) -> own_inv s' (e ++ evs).
Proof.
  induction sched as [|[i a] r IH]; intros s e s' evs H X; cbn [prun] in X.
  - assert (s' = s) by congruence. assert (evs = []) by congruence. subst. now rewrite app_nil_r.
  - destruct (pstep s i a) as [[s1 e1]|] eqn:E; [|exact (IH _ _ _ _ H X)]. destruct (prun s1 r) as [s2 e2] eqn:E2.
    assert (s' = s2) by congruence. assert (evs = e1 ++ e2) by congruence. subst. rewrite app_assoc. exact (IH _ _ _ _ (own_step _ _ _ _ _ _ H E) E2).
Qed.
Lemma own_new n k : (Z.of_nat k <= 65535)%Z -> own_inv (new_post n (repeat 0%Z k)) [].
Proof.
  intros K. constructor; cbn [new_post p_msgs p_tid p_pcs].
  - unfold nz. replace (filter (fun t => negb (t =? 0)%Z) (repeat 0%Z k)) with (@nil Z); [reflexivity|]. clear K. induction k; cbn; auto.
  - now rewrite repeat_length.
  - intros q t H. apply nth_error_In in H. apply repeat_spec in H. subst. lia.
  - intros q q' t H _ T. apply nth_error_In in H. apply repeat_spec in H. subst. contradiction.
  - intros i q t [].
  - intros j p q H A. apply nth_error_In in H. apply repeat_spec in H. subst. discriminate.
  - intros j q H. apply nth_error_In in H. apply repeat_spec in H. discriminate.
  - intros [|] i q t e2 H; discriminate.
Qed.

(** ** C100 *)
Lemma core n k sched s' evs origin : (Z.of_nat k <= 65535)%Z -> orderly early (new_post n (repeat 0%Z k)) sched ->
  prun (new_post n (repeat 0%Z k)) sched = (s', evs) -> answers_only evs origin ->
  forall e1 i q m e2, evs = e1 ++ EReturn i q (Some m) :: e2 ->
  exists e0 b a j i', e1 = e0 ++ EBegin i q :: b /\ (forall x y, ~ In (EBegin x y) b) /\
    nth_error evs a = Some (EArrive j m) /\ length e0 < a < length e1 /\ origin a < a /\
    nth_error evs (origin a) = Some (ESent i' q (m_TID m)).
Proof.
  intros K O H A e1 i q m e2 X. destruct (L_C53_orderly_partial _ _ _ _ _ O H _ _ _ _ _ X) as (b & (e0 & E0 & NB) & (R & S0 & j & Ar)).
  apply In_nth_error in Ar. destruct Ar as (x & Ar).
  assert (Lx : x < length b) by (apply nth_error_Some; congruence).
  assert (Ha : nth_error evs (length e0 + S x) = Some (EArrive j m)).
  { rewrite X, E0. rewrite <- app_assoc. rewrite nth_error_app2; [|lia]. replace (length e0 + S x - length e0) with (S x) by lia. cbn [nth_error app]. rewrite nth_error_app1; [exact Ar|exact Lx]. }
  pose proof (own_run _ _ _ _ _ (own_new n k K) H) as V. cbn [app] in V. destruct V as [_ _ _ I Sn _ _ _].
  destruct (A _ _ _ Ha R) as (Lo & i' & q' & Ho).
  assert (S1 : In (ESent i q (m_TID m)) evs). { rewrite X, E0. apply in_or_app. left. apply in_or_app. right. right. exact S0. }
  destruct (Sn _ _ _ S1) as [T1 T0]. destruct (Sn _ _ _ (nth_error_In _ _ Ho)) as [T2 _]. pose proof (I _ _ _ T1 T2 T0). subst q'.
  exists e0, b, (length e0 + S x), j, i'. repeat match goal with |- _ /\ _ => split end; auto; try lia.
  rewrite E0, app_length. cbn [length]. lia.
Qed.
Lemma L_C100_object_partial : forall n k sched s' evs origin, (Z.of_nat k <= 65535)%Z ->
  orderly early (new_post n (repeat 0%Z k)) sched ->
  prun (new_post n (repeat 0%Z k)) sched = (s', evs) -> answers_only evs origin -> same_object evs origin.
Proof.
  intros n k sched s' evs origin K O H A e1 i q m e2 X. destruct (core _ _ _ _ _ _ K O H A _ _ _ _ _ X) as (e0 & b & a & j & i' & E & _ & Ha & La & _ & Ho).
  exists e0, b, a, j, i'. auto.
Qed.
Lemma posts_app a b : posts (a ++ b) = posts a ++ posts b.
Proof. induction a as [|x a IH]; [reflexivity|]. destruct x; cbn; rewrite ?IH; auto. Qed.
Lemma posts_in e i q : In (EBegin i q) e -> In q (posts e).
Proof. induction e as [|x e IH]; [easy|]. intros [->|H]; [now left|]. destruct x; cbn; auto. Qed.
Lemma L_C100_own_partial : forall n k sched s' evs origin, (Z.of_nat k <= 65535)%Z ->
  orderly early (new_post n (repeat 0%Z k)) sched ->
  prun (new_post n (repeat 0%Z k)) sched = (s', evs) -> answers_only evs origin ->
  (* a new message object for each call *)
  NoDup (posts evs) -> own_answer evs origin.
Proof.
  intros n k sched s' evs origin K O H A ND e1 i q m e2 X. destruct (core _ _ _ _ _ _ K O H A _ _ _ _ _ X) as (e0 & b & a & j & i' & E & NB & Ha & La & Lo & Ho).
  pose proof (own_run _ _ _ _ _ (own_new n k K) H) as V. cbn [app] in V. destruct V as [_ _ _ _ _ _ _ B].
  assert (EV : evs = e0 ++ EBegin i q :: (b ++ EReturn i q (Some m) :: e2)) by (rewrite X, E, <- app_assoc; reflexivity).
  apply nth_error_split in Ho. destruct Ho as (f1 & f2 & EF & LF). pose proof (B _ _ _ _ _ EF) as Bg.
  rewrite EV, posts_app in ND. cbn [posts] in ND. apply NoDup_remove_2 in ND.
  assert (P : forall x, nth_error evs x = Some (EBegin i' q) -> x = length e0).
  { intros x Nx. destruct (Nat.lt_trichotomy x (length e0)) as [Q|[Q|Q]]; [|exact Q|]; exfalso; apply ND; apply in_or_app; rewrite EV in Nx.
    - left. apply (posts_in _ i'). rewrite nth_error_app1 in Nx by exact Q. exact (nth_error_In _ _ Nx).
    - right. apply (posts_in _ i'). rewrite nth_error_app2 in Nx by lia. destruct (x - length e0) as [|y] eqn:Y; [lia|]. cbn in Nx. exact (nth_error_In _ _ Nx). }
  apply In_nth_error in Bg. destruct Bg as (x & Nx). assert (Lx : x < length f1) by (apply nth_error_Some; congruence).
  assert (Nx' : nth_error evs x = Some (EBegin i' q)) by (rewrite EF, nth_error_app1; [exact Nx|exact Lx]).
  pose proof (P _ Nx') as ->.
  assert (i' = i). { rewrite EV in Nx'. rewrite nth_error_app2 in Nx' by lia. rewrite Nat.sub_diag in Nx'. cbn in Nx'. congruence. }
  subst i'. exists e0, b, a, j. repeat match goal with |- _ /\ _ => split end; auto; try lia.
  rewrite EF, <- LF, nth_error_app2 by lia. rewrite Nat.sub_diag. reflexivity.
Qed.

Ltac one_p := let I := fresh in intros ? ? I; cbn in I; repeat (destruct I as [?E|I]; [injection E as <- <-; auto; discriminate|]); contradiction.

(** Two calls with one object; the answer to the first request comes during the second call. *)
Definition again_sched : list (nat * act) := to_sleep 0 0 ++ st 0 5 ++ to_sleep 0 0 ++ handle 1 (rsp 1) ++ st 0 4.
Lemma L_C100_again_refuted : exists sched s' e0 e1 m,
  one_poster sched /\ orderly before_sleep (new_post 2 [0%Z]) sched /\
  prun (new_post 2 [0%Z]) sched = (s', e0 ++ EBegin 0 0 :: e1 ++ [EReturn 0 0 (Some m)]) /\
  (* the answer to the request of the first call *)
  nth_error e0 2 = Some (ESent 0 0 1) /\ answers_only (e0 ++ EBegin 0 0 :: e1 ++ [EReturn 0 0 (Some m)]) (fun _ => 2) /\
  (exists j, In (EArrive j m) e1) /\ ~ own_answer (e0 ++ EBegin 0 0 :: e1 ++ [EReturn 0 0 (Some m)]) (fun _ => 2).
Proof.
  exists again_sched. eexists _, [EBegin 0 0; ETid 0 0 1; ESent 0 0 1; ETimeout 0 0; EReturn 0 0 None], [ETid 0 0 1; ESent 0 0 1; EArrive 1 (rsp 1)], (rsp 1).
  split; [one_p|]. split; [apply orderlyb_ok; vm_compute; reflexivity|]. split; [vm_compute; reflexivity|]. split; [reflexivity|]. split; [|split].
  - intros a j m H _. do 9 (destruct a as [|a]; [try discriminate H|]); [|destruct a; [discriminate H|destruct a; discriminate H]]. cbn in H. assert (m = rsp 1) by congruence. subst. split; [lia|]. exists 0, 0. reflexivity.
  - exists 1. now (right; right; left).
  - intros O. destruct (O (([EBegin 0 0; ETid 0 0 1; ESent 0 0 1; ETimeout 0 0; EReturn 0 0 None]) ++ EBegin 0 0 :: [ETid 0 0 1; ESent 0 0 1; EArrive 1 (rsp 1)]) 0 0 (rsp 1) [] eq_refl)
      as (e0 & b & a & j & E & NB & _ & L & _).
    destruct e0 as [|x0 e0]; [injection E as <-; apply (NB 0 0); cbn; tauto|]. destruct e0 as [|x1 e0]; [discriminate E|]. destruct e0 as [|x2 e0]; [discriminate E|]. cbn in L. lia.
Qed.
Lemma L_C100_inf_refuted : forall m, m_ESV m = 0x73%Z -> m_TID m = 1%Z -> exists sched s' evs, one_poster sched /\
  prun (new_post 2 [0%Z]) sched = (s', evs) /\ In (ESent 0 0 1) evs /\ In (EReturn 0 0 (Some m)) evs.
Proof.
  intros m E T. apply L_C52_sender_refuted; [|exact T]. intros I. rewrite E in I. cbn in I. repeat (destruct I as [X|I]; [discriminate X|]). exact I.
Qed.
(** Two calls with two objects: the late answer to the first request is not returned by the second call. *)
Definition own_sched : list (nat * act) := to_sleep 0 0 ++ st 0 5 ++ to_sleep 0 1 ++ handle 1 (rsp 1) ++ handle 1 (rsp 2) ++ st 0 4.
Lemma L_C100_ex : exists evs, snd (prun (new_post 2 [0%Z; 0%Z]) own_sched) = evs /\ orderly early (new_post 2 [0%Z; 0%Z]) own_sched /\
  NoDup (posts evs) /\ answers_only evs (fun a => match a with 8 => 2 | _ => 7 end) /\
  evs = [EBegin 0 0; ETid 0 0 1; ESent 0 0 1; ETimeout 0 0; EReturn 0 0 None;
         EBegin 0 1; ETid 0 1 2; ESent 0 1 2; EArrive 1 (rsp 1); EArrive 1 (rsp 2); EReturn 0 1 (Some (rsp 2))].
Proof.
  eexists. split; [vm_compute; reflexivity|]. split; [apply orderlyb_ok; vm_compute; reflexivity|]. split; [|split; [|reflexivity]].
  - cbn. repeat constructor; cbn; intuition discriminate.
  - intros a j m H _. destruct a as [|[|[|[|[|[|[|[|[|[|[|a]]]]]]]]]]]; try discriminate H; cbn in H; [| |destruct a; discriminate H].
    + injection H as _ <-. split; [lia|]. exists 0, 0. reflexivity.
    + injection H as _ <-. split; [lia|]. exists 0, 1. reflexivity.
Qed.
