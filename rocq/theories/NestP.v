(** Lemmas for C96. *)
From Verif Require Import PyBase EsvM MsgM NodeM TidM PostM SpecPost NestM SpecNest WireP TidP PostP RaceP.

(** ** A run with callbacks as a run without *)
Lemma held_put s i h j : held (mknst (n_post s) (put (n_held s) i h)) j = match nth_error (n_held s) j with Some x => if Nat.eqb j i then h else x | None => None end.
Proof. unfold held. cbn [n_held]. rewrite nth_put. destruct (Nat.eqb_spec j i) as [->|]; [destruct (nth_error (n_held s) i); reflexivity|destruct (nth_error (n_held s) j); reflexivity]. Qed.
(** The shape of a step. *)
Inductive nshape (s : nst) (i : nat) (a : act) (s1 : nst) (e : list nev) : Prop :=
| ns_down m q p ev : nth_error (p_pcs (n_post s)) i = Some (RPre m) -> a = APost q -> held s i = None ->
    pstep (set_pc (n_post s) i PIdle) i (APost q) = Some (p, ev) -> s1 = mknst p (put (n_held s) i (Some m)) -> e = map (pair true) ev -> nshape s i a s1 e
| ns_plain p ev : held s i = None -> pstep (n_post s) i a = Some (p, ev) -> s1 = mknst p (n_held s) -> e = map (pair false) ev -> nshape s i a s1 e
| ns_in m p ev : held s i = Some m -> pstep (n_post s) i a = Some (p, ev) -> nth_error (p_pcs p) i <> Some PIdle -> s1 = mknst p (n_held s) -> e = map (pair true) ev -> nshape s i a s1 e
| ns_out m p ev : held s i = Some m -> pstep (n_post s) i a = Some (p, ev) -> nth_error (p_pcs p) i = Some PIdle ->
    s1 = mknst (if raised ev then p else set_pc p i (RPre m)) (put (n_held s) i None) -> e = map (pair true) ev -> nshape s i a s1 e.
Lemma nstep_shape s i a s1 e : nstep s i a = Some (s1, e) -> nshape s i a s1 e.
Proof.
  unfold nstep. destruct (held s i) as [m|] eqn:Eh.
  - assert (G : match pstep (n_post s) i a with
      | Some (p, e0) => match nth_error (p_pcs p) i with
          | Some PIdle => Some (mknst (if raised e0 then p else set_pc p i (RPre m)) (put (n_held s) i None), map (pair true) e0)
          | _ => Some (mknst p (n_held s), map (pair true) e0) end
      | None => None end = Some (s1, e) -> nshape s i a s1 e).
    { destruct (pstep (n_post s) i a) as [[p ev]|] eqn:P; [|discriminate]. intros H.
      assert (D : nth_error (p_pcs p) i = Some PIdle \/ nth_error (p_pcs p) i <> Some PIdle) by (destruct (nth_error (p_pcs p) i) as [[]|]; auto; right; discriminate).
      destruct D as [D|D].
      - rewrite D in H. assert (s1 = mknst (if raised ev then p else set_pc p i (RPre m)) (put (n_held s) i None) /\ e = map (pair true) ev) as (-> & ->) by (split; congruence).
        eapply ns_out; eauto.
      - assert (s1 = mknst p (n_held s) /\ e = map (pair true) ev) as (-> & ->) by (destruct (nth_error (p_pcs p) i) as [[]|]; split; congruence).
        eapply ns_in; eauto. }
    intros H. apply G. destruct (nth_error (p_pcs (n_post s)) i) as [[]|]; destruct a; exact H.
  - assert (G : match pstep (n_post s) i a with Some (p, e0) => Some (mknst p (n_held s), map (pair false) e0) | None => None end = Some (s1, e) -> nshape s i a s1 e).
    { destruct (pstep (n_post s) i a) as [[p ev]|] eqn:P; [|discriminate]. intros H. assert (s1 = mknst p (n_held s) /\ e = map (pair false) ev) as (-> & ->) by (split; congruence).
      eapply ns_plain; eauto. }
    destruct (nth_error (p_pcs (n_post s)) i) as [[]|] eqn:Ep; try (destruct a; exact G).
    destruct a; try exact G. destruct (pstep (set_pc (n_post s) i PIdle) i (APost q)) as [[p ev]|] eqn:P; [|discriminate].
    intros H. assert (s1 = mknst p (put (n_held s) i (Some m)) /\ e = map (pair true) ev) as (-> & ->) by (split; congruence). eapply ns_down; eauto.
Qed.

(** A thread whose message is held calls. *)
Definition ninv (s : nst) : Prop := forall i m, held s i = Some m -> exists p, nth_error (p_pcs (n_post s)) i = Some p /\ posting p = true.
Lemma posting_step s i a p ev x : nth_error (p_pcs s) i = Some x -> posting x = true -> pstep s i a = Some (p, ev) ->
  (exists y, nth_error (p_pcs p) i = Some y /\ posting y = true) \/ nth_error (p_pcs p) i = Some PIdle /\ (ev = [ERaise i] \/ exists q r, ev = [EReturn i q r]).
Proof.
  intros E P H. unfold pstep in H. rewrite E in H.
  destruct x; try discriminate P; destruct a; try discriminate H;
    repeat match type of H with context[match ?c with _ => _ end] => destruct c eqn:?; try discriminate H end; injection H as <- <-; cbn [p_pcs]; rewrite nth_put, Nat.eqb_refl, E;
    solve [left; eexists; split; reflexivity|right; split; [reflexivity|]; solve [left; reflexivity|right; do 2 eexists; reflexivity]].
Qed.
Lemma step_same s k a s' ev j : pstep s k a = Some (s', ev) -> j <> k ->
  forall p, nth_error (p_pcs s) j = Some p -> exists p', nth_error (p_pcs s') j = Some p' /\ posting p' = posting p.
Proof.
  intros H N p E. pose proof (step_pcs s k a s' ev H j N) as K. destruct K as [K|(m & q & _ & _ & K1 & K2)].
  - rewrite K, E. eauto.
  - rewrite E in K1. injection K1 as ->. rewrite K2. eexists. split; reflexivity.
Qed.
Lemma set_pc_pcs s i p j : nth_error (p_pcs (set_pc s i p)) j = match nth_error (p_pcs s) j with Some x => Some (if Nat.eqb j i then p else x) | None => None end.
Proof. unfold set_pc. cbn [p_pcs]. rewrite nth_put. destruct (Nat.eqb_spec j i) as [->|]; destruct (nth_error (p_pcs s) _); reflexivity. Qed.
Lemma post_begins s i q p ev : pstep s i (APost q) = Some (p, ev) ->
  nth_error (p_pcs s) i = Some PIdle /\ nth_error (p_pcs p) i = Some (PReq q) /\ ev = [EBegin i q].
Proof.
  intros H. unfold pstep in H. destruct (nth_error (p_pcs s) i) as [[]|] eqn:E; try discriminate H.
  destruct (Nat.ltb q (length (p_msgs s))); [|discriminate]. injection H as <- <-. cbn [p_pcs]. rewrite nth_put, Nat.eqb_refl, E. auto.
Qed.
Lemma ninv_new n l : ninv (new_nest n l).
Proof. intros i m H. unfold held, new_nest in H. cbn [n_held] in H. destruct (nth_error (repeat None n) i) as [h|] eqn:E; [|discriminate]. apply nth_error_In, repeat_spec in E. congruence. Qed.
Lemma held_at s p h i x j : held (mknst p (put (n_held s) i h)) j = Some x -> (j = i /\ h = Some x) \/ (j <> i /\ held s j = Some x).
Proof.
  unfold held. cbn [n_held]. rewrite nth_put. destruct (Nat.eqb_spec j i) as [->|N].
  - destruct (nth_error (n_held s) i); [|discriminate]. auto.
  - auto.
Qed.
Lemma ninv_step s i a s1 e : ninv s -> nstep s i a = Some (s1, e) -> ninv s1.
Proof.
  intros I H. destruct (nstep_shape _ _ _ _ _ H) as [m q p ev Ep -> Eh P -> ->|p ev Eh P -> ->|m p ev Eh P Ni -> ->|m p ev Eh P Ni -> ->]; intros j x Hx.
  - destruct (post_begins _ _ _ _ _ P) as (_ & B & _). apply held_at in Hx as [(-> & _)|(N & Hx)].
    + exists (PReq q). split; [exact B|reflexivity].
    + destruct (I j x Hx) as (y & Ey & Py). assert (Ey' : nth_error (p_pcs (set_pc (n_post s) i PIdle)) j = Some y) by (rewrite set_pc_pcs, Ey; apply Nat.eqb_neq in N; rewrite N; reflexivity).
      destruct (step_same _ _ _ _ _ j P N y Ey') as (y' & Ey2 & Q). exists y'. split; [exact Ey2|congruence].
  - destruct (Nat.eq_dec j i) as [->|N]; [unfold held in *; cbn [n_held] in Hx; congruence|]. destruct (I j x Hx) as (y & Ey & Py).
    destruct (step_same _ _ _ _ _ j P N y Ey) as (y' & Ey2 & Q). exists y'. split; [exact Ey2|congruence].
  - destruct (I j x Hx) as (y & Ey & Py). destruct (Nat.eq_dec j i) as [->|N].
    + destruct (posting_step _ _ _ _ _ _ Ey Py P) as [K|(K & _)]; [exact K|contradiction].
    + destruct (step_same _ _ _ _ _ j P N y Ey) as (y' & Ey2 & Q). exists y'. split; [exact Ey2|congruence].
  - apply held_at in Hx as [(_ & Hx)|(N & Hx)]; [discriminate|]. destruct (I j x Hx) as (y & Ey & Py).
    destruct (step_same _ _ _ _ _ j P N y Ey) as (y' & Ey2 & Q). exists y'. split; [|congruence]. cbn [n_post].
    destruct (raised ev); [exact Ey2|]. rewrite set_pc_pcs, Ey2. apply Nat.eqb_neq in N. rewrite N. reflexivity.
Qed.

(** The run without callbacks: the handling of the message is given up before the call and begins
    again after it. *)
Inductive grown : list pev -> list pev -> Prop :=
| g_nil : grown [] []
| g_keep x a b : grown a b -> grown (x :: a) (x :: b)
| g_raise i a b : grown a b -> grown a (ERaise i :: b)
| g_back i q r m a b : grown a b -> grown (EReturn i q r :: a) (EReturn i q r :: EArrive i m :: b).
Lemma grown_refl a : grown a a.
Proof. induction a; constructor; assumption. Qed.
Lemma grown_app a b a' b' : grown a b -> grown a' b' -> grown (a ++ a') (b ++ b').
Proof. intros H G. induction H; cbn [app]; [exact G|apply g_keep|apply g_raise|apply g_back]; assumption. Qed.
Lemma map_snd_pair {A B} (x : A) (l : list B) : map snd (map (pair x) l) = l.
Proof. rewrite map_map. apply map_id. Qed.
Lemma put_put {A} (l : list A) : forall i x y, put (put l i x) i y = put l i y.
Proof. induction l as [|z l IH]; intros [|i] x y; cbn [put]; try reflexivity. now rewrite IH. Qed.
Lemma pre_raise s i m : nth_error (p_pcs s) i = Some (RPre m) -> pstep s i ARaise = Some (set_pc s i PIdle, [ERaise i]).
Proof. intros E. unfold pstep. rewrite E. reflexivity. Qed.
Lemma idle_recv s i m : nth_error (p_pcs s) i = Some PIdle -> pstep s i (ARecv m) = Some (set_pc s i (RPre m), [EArrive i m]).
Proof. intros E. unfold pstep. rewrite E. reflexivity. Qed.
Lemma nstep_grows s i a s1 e : ninv s -> nstep s i a = Some (s1, e) ->
  exists l ev, prun (n_post s) l = (n_post s1, ev) /\ grown (map snd e) ev /\
  (others_quiet s i \/ match a with APost _ => False | _ => True end ->
   (forall j p, j <> i -> nth_error (p_pcs (n_post s)) j = Some p -> early p = false) -> orderly early (n_post s) l).
Proof.
  intros I H. destruct (nstep_shape _ _ _ _ _ H) as [m q p ev Ep -> Eh P -> ->|p ev Eh P -> ->|m p ev Eh P Ni -> ->|m p ev Eh P Ni -> ->]; rewrite map_snd_pair; cbn [n_post].
  - exists [(i, ARaise); (i, APost q)], (ERaise i :: ev). cbn [prun orderly]. rewrite (pre_raise _ _ _ Ep), P. split; [rewrite app_nil_r; reflexivity|].
    split; [apply g_raise, grown_refl|]. intros [O|[]] Ea. split; [exact Logic.I|]. split; [exact Ea|].
    assert (G : forall j x, j <> i -> nth_error (p_pcs (set_pc (n_post s) i PIdle)) j = Some x -> nth_error (p_pcs (n_post s)) j = Some x).
    { intros j x N. rewrite set_pc_pcs. apply Nat.eqb_neq in N. rewrite N. destruct (nth_error (p_pcs (n_post s)) j); auto. }
    split; [intros j x N Ex; exact (O j x N (G j x N Ex))|]. split; [|exact Logic.I]. intros j x N Ex. exact (Ea j x N (G j x N Ex)).
  - exists [(i, a)], ev. cbn [prun orderly]. rewrite P, app_nil_r. split; [reflexivity|]. split; [apply grown_refl|]. intros O Ea. split; [|split; [exact Ea|exact Logic.I]].
    destruct a; try exact Logic.I. destruct O as [O|[]]. exact O.
  - exists [(i, a)], ev. cbn [prun orderly]. rewrite P, app_nil_r. split; [reflexivity|]. split; [apply grown_refl|]. intros O Ea. split; [|split; [exact Ea|exact Logic.I]].
    destruct a; try exact Logic.I. destruct O as [O|[]]. exact O.
  - destruct (I i m Eh) as (y & Ey & Py). destruct (posting_step _ _ _ _ _ _ Ey Py P) as [(z & K & Pz)|(_ & K)]; [rewrite Ni in K; assert (z = PIdle) by congruence; subst z; discriminate|].
    destruct K as [-> |(q & r & ->)].
    + exists [(i, a)], [ERaise i]. cbn [prun orderly raised existsb]. rewrite P. split; [reflexivity|]. split; [apply grown_refl|]. intros O Ea. split; [|split; [exact Ea|exact Logic.I]].
      destruct a; try exact Logic.I. destruct O as [O|[]]. exact O.
    + exists [(i, a); (i, ARecv m)], [EReturn i q r; EArrive i m]. cbn [prun orderly raised existsb]. rewrite P, (idle_recv _ _ _ Ni). split; [reflexivity|].
      split; [apply g_back, g_nil|]. intros O Ea. split; [|split; [exact Ea|]].
      { destruct a; try exact Logic.I. destruct O as [O|[]]. exact O. }
      split; [exact Logic.I|]. split; [|exact Logic.I]. intros j x N Ex.
      destruct (step_pcs _ _ _ _ _ P j N) as [K|(m' & q' & _ & _ & K1 & K2)]; [rewrite K in Ex; exact (Ea j x N Ex)|]. rewrite K2 in Ex. injection Ex as <-. reflexivity.
Qed.
Lemma orderly_app f a : forall s b, orderly f s a -> orderly f (fst (prun s a)) b -> orderly f s (a ++ b).
Proof.
  induction a as [|[i x] a IH]; intros s b O Ob; [exact Ob|]. cbn [app orderly prun] in *. destruct (pstep s i x) as [[s1 e1]|]; [|apply IH; assumption].
  destruct O as (O1 & O2 & O3). split; [exact O1|]. split; [exact O2|]. apply IH; [exact O3|]. destruct (prun s1 a); exact Ob.
Qed.
Lemma nrun_grows sched : forall s s' e, ninv s -> nrun s sched = (s', e) ->
  exists l ev, prun (n_post s) l = (n_post s', ev) /\ grown (map snd e) ev /\ (nest_orderly s sched -> orderly early (n_post s) l).
Proof.
  induction sched as [|[i a] r IH]; intros s s' e I H; cbn [nrun nest_orderly] in *.
  - assert (s' = s /\ e = []) as (-> & ->) by (split; congruence). exists [], []. cbn. auto using g_nil.
  - destruct (nstep s i a) as [[s1 e1]|] eqn:E; [|exact (IH _ _ _ I H)]. destruct (nrun s1 r) as [s2 e2] eqn:E2.
    assert (s' = s2 /\ e = e1 ++ e2) as (-> & ->) by (split; congruence).
    destruct (nstep_grows _ _ _ _ _ I E) as (l1 & v1 & R1 & G1 & O1). destruct (IH _ _ _ (ninv_step _ _ _ _ _ I E) E2) as (l2 & v2 & R2 & G2 & O2).
    exists (l1 ++ l2), (v1 ++ v2). rewrite prun_app, R1, R2. split; [reflexivity|]. split; [rewrite map_app; apply grown_app; assumption|].
    intros (Oa & Oe & Or). apply orderly_app; [apply O1; [destruct a; auto|exact Oe]|]. rewrite R1. exact (O2 Or).
Qed.

(** ** What orderly calls return *)
Definition calm (s : pst) : Prop := forall j p, nth_error (p_pcs s) j = Some p -> posting p = false.
Lemma step_return s k a s' ev i q r : pstep s k a = Some (s', ev) -> In (EReturn i q r) ev ->
  i = k /\ ev = [EReturn i q r] /\ (exists p, nth_error (p_pcs s) i = Some p /\ posting p = true /\ early p = false) /\ p_pcs s' = put (p_pcs s) k PIdle.
Proof.
  intros E I. unfold pstep in E. destruct (nth_error (p_pcs s) k) as [pk|] eqn:Ek; [|discriminate].
  destruct pk, a; try discriminate E; repeat match type of E with context[match ?c with _ => _ end] => destruct c eqn:?; try discriminate E end; injection E as <- <-;
    cbn [In] in I; try contradiction I; destruct I as [I|[]]; try discriminate I; assert (i = k) as -> by congruence;
    (split; [reflexivity|]; split; [congruence|]; split; [eexists; split; [eassumption|split; reflexivity]|reflexivity]).
Qed.
Lemma calm_step s k a s' ev : calm s -> pstep s k a = Some (s', ev) -> calm s' \/ exists q, ev = [EBegin k q].
Proof.
  intros C H. assert (D : (exists q, a = APost q) \/ forall q, a <> APost q) by (destruct a; eauto; right; discriminate).
  destruct D as [(q & ->)|D]; [right; exists q; apply (post_begins _ _ _ _ _ H)|]. left. intros j p E.
  destruct (Nat.eq_dec j k) as [->|N].
  - unfold pstep in H. destruct (nth_error (p_pcs s) k) as [pk|] eqn:Ek; [|discriminate]. pose proof (C k pk Ek) as Cp.
    destruct pk; try discriminate Cp; destruct a; try discriminate H; try (exfalso; eapply D; reflexivity);
      repeat match type of H with context[match ?c with _ => _ end] => destruct c eqn:?; try discriminate H end; injection H as <- <-; cbn [p_pcs] in E; rewrite nth_put, Nat.eqb_refl in E;
      rewrite ?nth_wake, Ek in E; assert (Ep := f_equal (fun o => match o with Some x => posting x | None => false end) E); cbn in Ep; congruence.
  - destruct (step_pcs _ _ _ _ _ H j N) as [K|(m & q & _ & _ & K1 & _)]; [rewrite K in E; exact (C j p E)|]. specialize (C j _ K1). discriminate C.
Qed.
Lemma calm_run sched : forall s s' ev, calm s -> prun s sched = (s', ev) -> forall x i q r y, ev = x ++ EReturn i q r :: y -> exists j p, In (EBegin j p) x.
Proof.
  induction sched as [|[k a] l IH]; intros s s' ev C H x i q r y E; cbn [prun] in H.
  - assert (ev = []) by congruence. subst ev. destruct x; discriminate.
  - destruct (pstep s k a) as [[s1 e1]|] eqn:P; [|exact (IH _ _ _ C H _ _ _ _ _ E)]. destruct (prun s1 l) as [s2 e2] eqn:P2.
    assert (H0 : e1 ++ e2 = x ++ EReturn i q r :: y) by congruence. clear H E. destruct (calm_step _ _ _ _ _ C P) as [C1|(q0 & ->)].
    + destruct (step_events _ _ _ _ _ P) as [-> |(z & ->)].
      * exact (IH _ _ _ C1 P2 _ _ _ _ _ H0).
      * destruct x as [|z' x]; cbn [app] in H0.
        -- assert (z = EReturn i q r) by congruence. subst z. destruct (step_return _ _ _ _ _ i q r P (or_introl eq_refl)) as (_ & _ & (p & Ep & Pp & _) & _). rewrite (C _ _ Ep) in Pp. discriminate.
        -- destruct (IH _ _ _ C1 P2 x i q r y) as (j & p & J); [congruence|]. exists j, p. right. exact J.
    + destruct x as [|z' x]; cbn [app] in H0; [discriminate|]. exists k, q0. left. congruence.
Qed.
Lemma inv_calm s e k a s' ev i q r : inv s e -> pstep s k a = Some (s', ev) -> In (EReturn i q r) ev -> calm s'.
Proof.
  intros (_ & I) H R. destruct (step_return _ _ _ _ _ _ _ _ H R) as (-> & _ & (p & Ep & Pp & Np) & Pc).
  intros j x. rewrite Pc, nth_put. destruct (Nat.eqb_spec j k) as [->|N].
  - rewrite Ep. intros X. assert (x = PIdle) by congruence. subst x. reflexivity.
  - intros Ex. destruct I as [(NP & _)|(i & q' & b & p' & LC & Q & Pi & C)]; [rewrite (NP k p Ep) in Pp; discriminate|].
    destruct C as [(OI & _ & St)|C].
    + destruct (Nat.eq_dec k i) as [->|Ni]; [|rewrite (OI k p Ni Ep) in Pp; discriminate]. assert (p' = p) by congruence. subst p'. destruct p; try contradiction St; discriminate Np.
    + destruct C as (_ & _ & O & _). destruct (Nat.eq_dec k i) as [->|Ni].
      * exact (rpc_not_posting _ _ _ _ (O j x N Ex)).
      * specialize (O k p Ni Ep). apply rpc_not_posting in O. congruence.
Qed.
Lemma one_return sched : forall s e s' evs, inv s e -> orderly early s sched -> prun s sched = (s', evs) ->
  forall x i q r y i' q' r' z, evs = x ++ EReturn i q r :: y ++ EReturn i' q' r' :: z -> exists j p, In (EBegin j p) y.
Proof.
  induction sched as [|[k a] l IH]; intros s e s' evs I O H x i q r y i' q' r' z E; cbn [prun orderly] in H, O.
  - assert (evs = []) by congruence. subst evs. destruct x; discriminate.
  - destruct (pstep s k a) as [[s1 e1]|] eqn:P; [|exact (IH _ _ _ _ I O H _ _ _ _ _ _ _ _ _ E)]. destruct (prun s1 l) as [s2 e2] eqn:P2.
    destruct O as (Oa & Of & Or). assert (Ev : e1 ++ e2 = x ++ EReturn i q r :: y ++ EReturn i' q' r' :: z) by congruence. clear H E.
    destruct (inv_step s e k a s1 e1 I P Oa Of) as (I1 & _).
    destruct (step_events _ _ _ _ _ P) as [-> |(w & ->)]; [exact (IH _ _ _ _ I1 Or P2 _ _ _ _ _ _ _ _ _ Ev)|].
    destruct x as [|w' x]; cbn [app] in Ev.
    + assert (w = EReturn i q r) by congruence. subst w. pose proof (inv_calm _ _ _ _ _ _ i q r I P (or_introl eq_refl)) as C.
      apply (calm_run l s1 s2 e2 C P2 y i' q' r' z). congruence.
    + apply (IH _ _ _ _ I1 Or P2 x i q r y i' q' r' z). congruence.
Qed.

Lemma grown_split x e2 : forall e1 ev, grown (e1 ++ x :: e2) ev -> exists e1' e2', ev = e1' ++ x :: e2' /\ grown e1 e1'.
Proof.
  intros e1 ev G. remember (e1 ++ x :: e2) as e eqn:E. revert e1 E. induction G; intros e1 E.
  - destruct e1; discriminate.
  - destruct e1 as [|y e1]; cbn [app] in E; injection E as -> ->.
    + exists [], b. split; [reflexivity|apply g_nil].
    + destruct (IHG e1 eq_refl) as (u & v & -> & Gu). exists (y :: u), v. split; [reflexivity|apply g_keep, Gu].
  - destruct (IHG e1 E) as (u & v & -> & Gu). exists (ERaise i :: u), v. split; [reflexivity|apply g_raise, Gu].
  - destruct e1 as [|y e1]; cbn [app] in E.
    + assert (x = EReturn i q r) by congruence. subst x. eexists [], _. split; [reflexivity|apply g_nil].
    + assert (y = EReturn i q r /\ a = e1 ++ x :: e2) as (-> & ->) by (split; congruence). destruct (IHG e1 eq_refl) as (u & v & -> & Gu).
      exists (EReturn i q r :: EArrive i m :: u), v. split; [reflexivity|apply g_back, Gu].
Qed.
Lemma grown_back i q b' : forall e a', grown e (a' ++ EBegin i q :: b') -> exists a b, e = a ++ EBegin i q :: b /\ grown b b'.
Proof.
  intros e a' G. remember (a' ++ EBegin i q :: b') as ev eqn:E. revert a' E. induction G; intros a' E.
  - destruct a'; discriminate.
  - destruct a' as [|y a']; cbn [app] in E.
    + assert (x = EBegin i q /\ b = b') as (-> & ->) by (split; congruence). exists [], a. auto.
    + assert (x = y /\ b = a' ++ EBegin i q :: b') as (-> & ->) by (split; congruence). destruct (IHG a' eq_refl) as (u & v & -> & Gu). exists (y :: u), v. auto.
  - destruct a' as [|y a']; cbn [app] in E; [discriminate|]. assert (b = a' ++ EBegin i q :: b') as -> by congruence. exact (IHG a' eq_refl).
  - destruct a' as [|y a']; cbn [app] in E; [discriminate|]. destruct a' as [|y2 a']; cbn [app] in E; [discriminate|]. assert (b = a' ++ EBegin i q :: b') as -> by congruence.
    destruct (IHG a' eq_refl) as (u & v & -> & Gu). exists (EReturn i0 q0 r :: u), v. auto.
Qed.
Lemma grown_in e ev : grown e ev -> forall x, In x e -> In x ev.
Proof. intros G. induction G; intros y I; cbn [In] in *; intuition. Qed.
Lemma grown_from e ev : grown e ev -> forall x, In x ev -> In x e \/ (exists i, x = ERaise i) \/ exists i m u q r v, x = EArrive i m /\ ev = u ++ EReturn i q r :: v.
Proof.
  intros G. induction G; intros y I; cbn [In] in *.
  - contradiction.
  - destruct I as [-> |I]; [auto|]. destruct (IHG y I) as [K|[K|(i & m & u & q & r & v & K & ->)]]; auto. right. right. exists i, m, (x :: u), q, r, v. auto.
  - destruct I as [<- |I]; [right; left; eauto|]. destruct (IHG y I) as [K|[K|(i' & m & u & q & r & v & K & ->)]]; auto. right. right. exists i', m, (ERaise i :: u), q, r, v. auto.
  - destruct I as [<- |[<- |I]]; [auto|right; right; exists i, m, [], q, r; eexists; split; reflexivity|].
    destruct (IHG y I) as [K|[K|(i' & m' & u & q' & r' & v & K & ->)]]; auto. right. right. exists i', m', (EReturn i q r :: EArrive i m :: u), q', r', v. auto.
Qed.
Lemma L_C96_orderly_partial : forall n l sched s' evs, nest_orderly (new_nest n l) sched ->
  nrun (new_nest n l) sched = (s', evs) -> returns_right (map snd evs).
Proof.
  intros n l sched s' evs O H e1 i q r e2 E. destruct (nrun_grows sched _ _ _ (ninv_new n l) H) as (sc & ev & R & G & Oc). specialize (Oc O). cbn [new_nest n_post] in R, Oc.
  rewrite E in G. destruct (grown_split _ _ _ _ G) as (e1' & e2' & -> & G1).
  destruct (L_C53_orderly_partial n l sc _ _ Oc R e1' i q r e2' eq_refl) as (b' & (a' & -> & Nb) & RR).
  destruct (grown_back _ _ _ _ _ G1) as (a & b & -> & Gb). exists b. split.
  { exists a. split; [reflexivity|]. intros j p J. exact (Nb j p (grown_in _ _ Gb _ J)). }
  pose proof (one_return sc _ _ _ _ (inv_new n l) Oc R) as OR.
  assert (K : forall x, (forall i, x <> ERaise i) -> In x b' -> In x b).
  { intros x Nr I. destruct (grown_from _ _ Gb x I) as [K|[(i' & K)|(i' & m & u & q' & r' & v & -> & ->)]]; [exact K|exfalso; exact (Nr _ K)|].
    exfalso. destruct (OR (a' ++ EBegin i q :: u) i' q' r' v i q r e2') as (j & p & J); [rewrite <- !app_assoc; cbn [app]; rewrite <- !app_assoc; reflexivity|].
    apply (Nb j p). apply in_app_iff. right. right. exact J. }
  unfold right_return in *. destruct r as [m|].
  - destruct RR as (R1 & R2 & j & R3). split; [exact R1|]. split; [apply K; [discriminate|exact R2]|]. exists j. apply K; [discriminate|exact R3].
  - destruct RR as [RR|RR]; [left|right]; (apply K; [discriminate|exact RR]).
Qed.

(** ** The lock *)
Lemma L_C96_lock : forall n l sched s' evs, nrun (new_nest n l) sched = (s', evs) ->
  forall i j p p', nth_error (p_pcs (n_post s')) i = Some p -> nth_error (p_pcs (n_post s')) j = Some p' -> in_lock p = true -> in_lock p' = true -> i = j.
Proof.
  intros n l sched s' evs H. destruct (nrun_grows sched _ _ _ (ninv_new n l) H) as (sc & ev & R & _ & _). exact (L_C66_lock n l sc _ _ R).
Qed.
Definition helds (s : nst) : nat := length (filter (fun h : option msg => match h with Some _ => true | None => false end) (n_held s)).
Definition weight (s : nst) : nat := (total (p_pcs (n_post s)) + 13 * helds s)%nat.
Lemma helds_put l : forall i m, nth_error l i = Some (Some m) ->
  S (length (filter (fun h : option msg => match h with Some _ => true | None => false end) (put l i None))) = length (filter (fun h : option msg => match h with Some _ => true | None => false end) l).
Proof.
  induction l as [|h l IH]; intros [|i] m E; cbn [nth_error] in E; try discriminate.
  - injection E as ->. reflexivity.
  - cbn [put filter]. destruct h; cbn [length]; [f_equal|]; exact (IH i m E).
Qed.
Lemma weight_step s k a s' ev : nstep s k a = Some (s', ev) -> new_call a = false -> (weight s' < weight s)%nat.
Proof.
  intros H N. unfold weight, helds. destruct (nstep_shape _ _ _ _ _ H) as [m q p v Ep -> Eh P -> ->|p v Eh P -> ->|m p v Eh P Ni -> ->|m p v Eh P Ni -> ->]; cbn [n_post n_held].
  - discriminate N.
  - pose proof (rank_step _ _ _ _ _ P N). lia.
  - pose proof (rank_step _ _ _ _ _ P N). lia.
  - pose proof (rank_step _ _ _ _ _ P N) as R. assert (Eh' : nth_error (n_held s) k = Some (Some m)) by (unfold held in Eh; destruct (nth_error (n_held s) k); congruence).
    pose proof (helds_put (n_held s) k m Eh') as Hp. destruct (raised v); [lia|]. unfold set_pc. cbn [p_pcs]. pose proof (total_put (p_pcs p) k PIdle (RPre m) Ni) as T. cbn [rank] in T. lia.
Qed.
Lemma nstep_can s k a s1 ev : new_call a = false -> pstep (n_post s) k a = Some (s1, ev) -> exists s2 e2, nstep s k a = Some (s2, e2).
Proof.
  intros N P. unfold nstep. destruct (nth_error (p_pcs (n_post s)) k) as [pk|] eqn:E; [|unfold pstep in P; rewrite E in P; discriminate].
  destruct a; try discriminate N; rewrite P; destruct (held s k); destruct pk; try (destruct (nth_error (p_pcs s1) k) as [[]|]); eauto.
Qed.
Lemma ready_lock s : (exists n l sc ev, prun (new_post n l) sc = (n_post s, ev)) -> lockinv (n_post s) /\ lockown (n_post s).
Proof. intros (n & l & sc & ev & R). destruct (lock_new n l) as (L & W). exact (lock_run sc _ _ _ L W R). Qed.
Lemma L_C96_no_deadlock : forall n l sched s' evs, nrun (new_nest n l) sched = (s', evs) -> exists sched2 s2 evs2,
  (forall i a, In (i, a) sched2 -> a = AStep \/ a = ASend true) /\ nrun s' sched2 = (s2, evs2) /\
  (forall j p, nth_error (p_pcs (n_post s2)) j = Some p -> p = PIdle) /\ forall j, held s2 j = None.
Proof.
  intros n l sched s' evs H. destruct (nrun_grows sched _ _ _ (ninv_new n l) H) as (sc & ev & R & _ & _).
  assert (Re : exists n l sc ev, prun (new_post n l) sc = (n_post s', ev)) by (exists n, l, sc, ev; exact R).
  assert (I : ninv s'). { clear R Re. revert H. pose proof (ninv_new n l) as I. revert I. generalize (new_nest n l). intros s. revert s evs. induction sched as [|[k a] r IH]; intros s evs I H; cbn [nrun] in H; [assert (s = s') as <- by congruence; exact I|].
    destruct (nstep s k a) as [[s1 e1]|] eqn:E; [|eauto]. destruct (nrun s1 r) as [s2 e2] eqn:E2. assert (s2 = s') by congruence. subst s2. exact (IH s1 e2 (ninv_step _ _ _ _ _ I E) E2). }
  clear R H sched evs sc ev n l. remember (weight s') as t eqn:Et. revert s' Et Re I. induction t as [t IH] using (well_founded_induction lt_wf). intros s -> Re I.
  destruct (Nat.eq_dec (total (p_pcs (n_post s))) 0) as [Z|Z].
  - exists [], s, []. split; [contradiction|]. split; [reflexivity|]. pose proof (total_zero _ Z) as T. split; [exact T|].
    intros j. destruct (held s j) as [m|] eqn:Eh; [|reflexivity]. destruct (I j m Eh) as (p & Ep & Pp). rewrite (T j p Ep) in Pp. discriminate.
  - destruct (ready_lock s Re) as (L & W). destruct (progress _ L W Z) as (k & a & s1 & v & A & E). assert (NC : new_call a = false) by (destruct A; subst a; reflexivity).
    destruct (nstep_can _ _ _ _ _ NC E) as (s2 & e2 & E2). destruct (nstep_grows _ _ _ _ _ I E2) as (sc & v2 & R2 & _ & _).
    destruct Re as (n & l & sc0 & v0 & R0).
    destruct (IH _ (weight_step _ _ _ _ _ E2 NC) s2 eq_refl) as (sched2 & s3 & evs3 & Q & R & F).
    { exists n, l, (sc0 ++ sc), (v0 ++ v2). rewrite prun_app, R0, R2. reflexivity. }
    { exact (ninv_step _ _ _ _ _ I E2). }
    exists ((k, a) :: sched2), s3, (e2 ++ evs3). split; [|split; [cbn [nrun]; rewrite E2, R; reflexivity|exact F]].
    intros i b [X|X]; [congruence|eauto].
Qed.

(** ** Calls in the only receiving thread *)
Definition receives (p : pc) : bool := match p with PIdle => false | _ => negb (posting p) end.
Definition dinv (r : nat) (s : nst) : Prop :=
  (forall j p, j <> r -> nth_error (p_pcs (n_post s)) j = Some p -> receives p = false) /\
  (forall m, held s r = Some m -> k_resp (cell_of (n_post s) (p_last (n_post s))) = None /\
    forall q p, nth_error (p_pcs (n_post s)) r = Some (PRet q p) -> k_resp (cell_of (n_post s) p) = None).
Lemma nth_putd {A} (l : list A) d : forall i x k, nth k (put l i x) d = if (Nat.eqb k i && Nat.ltb i (length l))%bool then x else nth k l d.
Proof.
  induction l as [|y l IH]; intros i x k; [rewrite andb_false_r; destruct i, k; reflexivity|].
  destruct i, k; cbn [put nth Nat.eqb length andb]; try reflexivity. rewrite IH. reflexivity.
Qed.
(** Steps of threads that receive nothing store no response. *)
Lemma cells_kept s i a s1 e x : nth_error (p_pcs s) i = Some x -> receives x = false -> (forall m, a <> ARecv m) -> pstep s i a = Some (s1, e) ->
  (forall p, k_resp (cell_of s p) = None -> k_resp (cell_of s1 p) = None) /\
  (k_resp (cell_of s (p_last s)) = None -> k_resp (cell_of s1 (p_last s1)) = None) /\
  (forall y, nth_error (p_pcs s1) i = Some y -> receives y = false) /\
  (forall q p, nth_error (p_pcs s1) i = Some (PRet q p) -> p = p_last s) /\
  (forall q r, In (EReturn i q r) e -> r = None \/ exists p, x = PRet q p /\ r = k_resp (cell_of s p)) /\
  (forall j, j <> i -> nth_error (p_pcs s1) j = nth_error (p_pcs s) j).
Proof.
  intros E Rx Na H. unfold pstep in H. rewrite E in H.
  destruct x; try discriminate Rx; destruct a; try discriminate H; try (exfalso; eapply Na; reflexivity);
    repeat match type of H with context[match ?c with _ => _ end] => destruct c eqn:?; try discriminate H end; injection H as <- <-; cbn [p_pcs p_last];
    (split; [|split; [|split; [|split; [|split]]]]);
    try (intros j Nj; rewrite nth_put; destruct (Nat.eqb_spec j i); [contradiction|reflexivity]);
    try (intros z; rewrite nth_put, Nat.eqb_refl, E; intros Hz; assert (Hz' := f_equal (fun o => match o with Some u => receives u | None => false end) Hz); cbn in Hz'; congruence);
    try (intros z1 z2; rewrite nth_put, Nat.eqb_refl, E; intros Hz; congruence);
    try (intros z1 z2 Hz; cbn [In] in Hz; try contradiction Hz; destruct Hz as [Hz|[]]; solve [discriminate Hz|left; congruence|right; exists p; split; congruence]);
    try (intros z1 z2 []);
    unfold cell_of; cbn [p_cells p_last]; auto.
  - intros p Hp. destruct (Nat.lt_ge_cases p (length (p_cells s))) as [L|L]; [rewrite app_nth1 by exact L; exact Hp|]. rewrite app_nth2 by exact L. destruct (p - length (p_cells s))%nat as [|[|]]; reflexivity.
  - intros _. rewrite app_nth2, Nat.sub_diag by lia. reflexivity.
  - intros k Hk. rewrite nth_putd. destruct (Nat.eqb_spec k p) as [->|]; [|exact Hk]. destruct (Nat.ltb p (length (p_cells s))); [exact Hk|exact Hk].
  - intros Hk. rewrite nth_putd. destruct (Nat.eqb_spec (p_last s) p) as [El|]; [|exact Hk]. rewrite El in *. destruct (Nat.ltb p (length (p_cells s))); [exact Hk|exact Hk].
  - intros y. rewrite nth_put, Nat.eqb_refl, E. intros X. assert (y = PSend q) by congruence. subst y. reflexivity.
Qed.
Definition dinv2 (r : nat) (s : nst) : Prop := dinv r s /\ forall j, j <> r -> held s j = None.
Lemma receives_posting p : receives p = false -> p = PIdle \/ posting p = true.
Proof. destruct p; cbn; auto; discriminate. Qed.
Lemma dinv_step r s i a s1 e : ninv s -> dinv2 r s -> (forall m, a = ARecv m -> i = r) -> nstep s i a = Some (s1, e) ->
  dinv2 r s1 /\ forall j q x, In (true, EReturn j q x) e -> x = None.
Proof.
  intros I ((D1 & D2) & D3) Na H.
  assert (Inm : forall ev b j q x, In (true, EReturn j q x) (map (pair b) ev) -> b = true /\ In (EReturn j q x) ev).
  { intros ev b j q x X. apply in_map_iff in X. destruct X as (y & Y & Iy). split; congruence. }
  destruct (nstep_shape _ _ _ _ _ H) as [m q p ev Ep -> Eh P -> ->|p ev Eh P -> ->|m p ev Eh P Ni -> ->|m p ev Eh P Ni -> ->].
  - (* a callback calls *)
    assert (i = r) as ->. { destruct (Nat.eq_dec i r) as [->|N]; [reflexivity|]. specialize (D1 i _ N Ep). discriminate D1. }
    destruct (post_begins _ _ _ _ _ P) as (Ei & B & ->).
    assert (Nr : forall m', APost q <> ARecv m') by discriminate.
    destruct (cells_kept _ _ _ _ _ _ Ei eq_refl Nr P) as (K1 & K2 & K3 & K4 & K5 & K6).
    split; [|intros j q' x [X|[]]; discriminate X]. split; [split|].
    + intros j x N. cbn [n_post]. rewrite (K6 j N), set_pc_pcs. apply Nat.eqb_neq in N as N'. rewrite N'. intros X. apply (D1 j x N). destruct (nth_error (p_pcs (n_post s)) j); exact X.
    + intros m' _. cbn [n_post]. split.
      * unfold pstep in P. rewrite Ei in P. destruct (Nat.ltb q (length (p_msgs (set_pc (n_post s) r PIdle)))); [|discriminate].
        injection P as <-. unfold cell_of. cbn [p_cells p_last set_pc]. rewrite app_nth2, Nat.sub_diag by lia. reflexivity.
      * intros q' p' X. rewrite B in X. discriminate.
    + intros j N. destruct (held (mknst p (put (n_held s) r (Some m))) j) as [x|] eqn:X; [|reflexivity]. apply held_at in X as [(C & _)|(_ & X)]; [contradiction|]. rewrite (D3 j N) in X. discriminate.
  - (* outside callbacks *)
    split; [|intros j q x X; apply Inm in X as (X & _); discriminate]. destruct (Nat.eq_dec i r) as [->|N].
    + split; [split|exact D3].
      * intros j x N. cbn [n_post]. intros X. destruct (step_pcs _ _ _ _ _ P j N) as [K|(m & q & _ & _ & K1 & K2)]; [rewrite K in X; exact (D1 j x N X)|]. rewrite K2 in X. injection X as <-. reflexivity.
      * intros m X. unfold held in *. cbn [n_held] in X. congruence.
    + destruct (nth_error (p_pcs (n_post s)) i) as [x|] eqn:Ex; [|unfold pstep in P; rewrite Ex in P; discriminate].
      assert (Nr : forall m, a <> ARecv m) by (intros m C; exact (N (Na m C))).
      destruct (cells_kept _ _ _ _ _ _ Ex (D1 i x N Ex) Nr P) as (K1 & K2 & K3 & K4 & K5 & K6). split; [split|exact D3].
      * intros j y Nj Y. cbn [n_post] in Y. destruct (Nat.eq_dec j i) as [->|Nji]; [exact (K3 y Y)|]. rewrite (K6 j Nji) in Y. exact (D1 j y Nj Y).
      * intros m X. destruct (D2 m X) as (R1 & R2). cbn [n_post]. split; [exact (K2 R1)|]. intros q p' Y. apply K1. apply (R2 q p'). rewrite (K6 r ltac:(congruence)) in Y. exact Y.
  - assert (i = r) as ->. { destruct (Nat.eq_dec i r) as [->|N]; [reflexivity|]. rewrite (D3 i N) in Eh. discriminate. }
    destruct (I r m Eh) as (y & Ey & Py). assert (Ry : receives y = false) by (destruct y; (reflexivity || discriminate Py)). destruct (D2 m Eh) as (R1 & R2).
    assert (Nr : forall m', a <> ARecv m') by (intros m' ->; unfold pstep in P; rewrite Ey in P; destruct y; discriminate || discriminate Py).
    destruct (cells_kept _ _ _ _ _ _ Ey Ry Nr P) as (K1 & K2 & K3 & K4 & K5 & K6). split.
    + split; [split|exact D3].
      * intros j x N X. cbn [n_post] in X. rewrite (K6 j N) in X. exact (D1 j x N X).
      * intros m' _. cbn [n_post]. split; [exact (K2 R1)|]. intros q p' X. rewrite (K4 q p' X). exact (K1 _ R1).
    + intros j q x X. apply Inm in X as (_ & X). destruct (step_return _ _ _ _ _ _ _ _ P X) as (-> & _ & _ & Pc). exfalso. apply Ni. rewrite Pc, nth_put, Nat.eqb_refl, Ey. reflexivity.
  - assert (i = r) as ->. { destruct (Nat.eq_dec i r) as [->|N]; [reflexivity|]. rewrite (D3 i N) in Eh. discriminate. }
    destruct (I r m Eh) as (y & Ey & Py). assert (Ry : receives y = false) by (destruct y; (reflexivity || discriminate Py)). destruct (D2 m Eh) as (R1 & R2).
    assert (Nr : forall m', a <> ARecv m') by (intros m' ->; unfold pstep in P; rewrite Ey in P; destruct y; discriminate || discriminate Py).
    destruct (cells_kept _ _ _ _ _ _ Ey Ry Nr P) as (K1 & K2 & K3 & K4 & K5 & K6). split.
    + split; [split|].
      * intros j x N X. cbn [n_post] in X. apply (D1 j x N). rewrite <- (K6 j N). destruct (raised ev); [exact X|]. rewrite set_pc_pcs in X. apply Nat.eqb_neq in N. rewrite N in X. destruct (nth_error (p_pcs p) j); exact X.
      * intros m' X. apply held_at in X as [(_ & X)|(X & _)]; [discriminate|contradiction].
      * intros j N. destruct (held (mknst (if raised ev then p else set_pc p r (RPre m)) (put (n_held s) r None)) j) as [x|] eqn:X; [|reflexivity].
        apply held_at in X as [(C & _)|(_ & X)]; [contradiction|]. rewrite (D3 j N) in X. discriminate.
    + intros j q x X. apply Inm in X as (_ & X). destruct (step_return _ _ _ _ _ _ _ _ P X) as (-> & _ & _ & _).
      destruct (K5 q x X) as [->|(p' & -> & ->)]; [reflexivity|]. exact (R2 q p' Ey).
Qed.
Lemma L_C96_deaf_refuted : forall n l r sched s' evs, one_receiver r sched -> nrun (new_nest n l) sched = (s', evs) ->
  forall i q x, In (true, EReturn i q x) evs -> x = None.
Proof.
  intros n l r sched s' evs O H. assert (D : dinv2 r (new_nest n l)).
  { split; [split|].
    - intros j p _ E. cbn [new_nest n_post new_post p_pcs] in E. apply nth_error_In, repeat_spec in E. subst p. reflexivity.
    - intros m E. unfold held, new_nest in E. cbn [n_held] in E. destruct (nth_error (repeat None n) r) as [h|] eqn:X; [|discriminate]. apply nth_error_In, repeat_spec in X. congruence.
    - intros j _. unfold held, new_nest. cbn [n_held]. destruct (nth_error (repeat None n) j) as [h|] eqn:X; [|reflexivity]. apply nth_error_In, repeat_spec in X. exact X. }
  pose proof (ninv_new n l) as I. revert D I H. generalize (new_nest n l). intros s. revert s evs. induction sched as [|[k a] sched IH]; intros s evs D I H i q x X; cbn [nrun] in H.
  - assert (evs = []) by congruence. subst evs. contradiction.
  - assert (O' : one_receiver r sched) by (intros j m J; apply (O j m); right; exact J).
    destruct (nstep s k a) as [[s1 e1]|] eqn:E; [|exact (IH O' s evs D I H i q x X)]. destruct (nrun s1 sched) as [s2 e2] eqn:E2.
    assert (evs = e1 ++ e2) by congruence. subst evs.
    destruct (dinv_step r s k a s1 e1 I D) as (D1 & R1); [intros m ->; apply (O k m); left; reflexivity|exact E|].
    apply in_app_iff in X as [X|X]; [exact (R1 i q x X)|]. assert (s2 = s') by congruence. subst s2. exact (IH O' s1 e2 D1 (ninv_step _ _ _ _ _ I E) E2 i q x X).
Qed.

(** ** Calls of other threads *)
Lemma L_C96_stolen_refuted : forall m1, response m1 -> m_TID m1 = 1 -> exists sched s' evs m2 e,
  nrun (new_nest 3 [0; 0]) sched = (s', evs) /\
  evs = [(false, EBegin 0 0); (false, ETid 0 0 1); (false, ESent 0 0 1); (false, EArrive 1 m1); (true, EBegin 1 1); (true, ETid 1 1 2); (true, ESent 1 1 2);
         (false, EArrive 2 m2); (false, EReturn 0 0 (Some m2))] ++ e /\ m_TID m2 = 2.
Proof.
  intros m1 R T. exists (to_sleep 0 0 ++ (1%nat, ARecv m1) :: to_sleep 1 1 ++ handle 2 (rsp 2) ++ st 0 4). eexists _, _, (rsp 2), []. split; [vm_compute; reflexivity|]. split; reflexivity.
Qed.
Lemma L_C96_dropped_refuted : exists sched s' evs m1,
  one_receiver 1 sched /\ nrun (new_nest 2 [0; 0]) sched = (s', evs) /\ response m1 /\
  evs = [(false, EBegin 0 0); (false, ETid 0 0 1); (false, ESent 0 0 1); (false, EArrive 1 m1); (true, EBegin 1 1); (true, ETid 1 1 2); (true, ESent 1 1 2);
         (true, ETimeout 1 1); (true, EReturn 1 1 None); (false, ETimeout 0 0); (false, EReturn 0 0 None)] /\ m_TID m1 = 1 /\
  forall j p, nth_error (p_pcs (n_post s')) j = Some p -> p = PIdle.
Proof.
  exists (to_sleep 0 0 ++ (1%nat, ARecv (rsp 1)) :: to_sleep 1 1 ++ st 1 5 ++ st 1 12 ++ st 0 5). eexists _, _, (rsp 1). split.
  { intros i m I. cbn in I. repeat (destruct I as [E|I]; [injection E as <- E; try discriminate E; reflexivity|]). contradiction. }
  split; [vm_compute; reflexivity|]. split; [intros X; repeat (destruct X as [X|X]; [discriminate X|]); exact X|]. split; [reflexivity|]. split; [reflexivity|].
  intros [|[|[|]]] p E; cbn in E; congruence.
Qed.

(** ** Deciding [nest_orderly], for the examples *)
Fixpoint nest_orderlyb (s : nst) (sched : list (nat * act)) : bool :=
  match sched with
  | [] => true
  | (i, a) :: r =>
      match nstep s i a with
      | None => nest_orderlyb s r
      | Some (s1, _) =>
          match a with APost _ => all_but (fun p => match p with PIdle => true | _ => false end) i (p_pcs (n_post s)) | _ => true end &&
          all_but (fun p => negb (early p)) i (p_pcs (n_post s)) && nest_orderlyb s1 r
      end
  end.
Lemma nest_orderlyb_ok sched : forall s, nest_orderlyb s sched = true -> nest_orderly s sched.
Proof.
  induction sched as [|[i a] r IH]; intros s H; cbn [nest_orderly nest_orderlyb] in *; [exact I|].
  destruct (nstep s i a) as [[s1 ev]|]; [|auto]. apply andb_prop in H. destruct H as (H & H3). apply andb_prop in H. destruct H as (H1 & H2). split; [|split; [|auto]].
  - destruct a; try exact I. intros j p J E. pose proof (all_but_spec _ _ _ H1 j p J E) as B. destruct p; (reflexivity || discriminate B).
  - intros j p J E. pose proof (all_but_spec _ _ _ H2 j p J E) as B. cbv beta in B. destruct (early p); [discriminate B|reflexivity].
Qed.
