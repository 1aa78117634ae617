(** More lemmas for C87. *)
From Coq Require Import Sorted.
From Verif Require Import PyBase TidM TidP StopM SpecStop StopP.
Import StopM.
Local Open Scope nat_scope.

Ltac fin := split; [reflexivity|cbn; first [congruence|auto]].
(** ** A send that begins late *)
Lemma t_keeps self s t : forall s1 t1, tstep self s t = (s1, t1) -> q_users s1 = q_users s /\ (q_cleared s = true -> q_cleared s1 = true).
Proof.
  intros s1 t1. destruct t as [|k ph|ann|ann k c|q]; cbn [tstep].
  - destruct (q_cleared s) eqn:E; intros [= <- <-]; fin.
  - destruct (nth_error (q_socks s) k) as [v|]; [|intros [= <- <-]; fin].
    destruct ph.
    + destruct (k_ref v); intros [= <- <-]; fin.
    + intros [= <- <-]. destruct (k_ref v && negb (k_closed v)); fin.
    + destruct (k_ref v); intros [= <- <-]; fin.
    + intros [= <- <-]; fin.
    + destruct self as [i|]; [destruct (Nat.eqb i k); [intros [= <- <-]; fin|]|]; destruct (nth_error (q_recv s) k) as [[]|]; intros [= <- <-]; fin.
  - destruct (q_cleared s) eqn:E; intros [= <- <-]; fin.
  - destruct (nth_error (q_socks s) k) as [v|]; [|intros [= <- <-]; fin].
    destruct (negb (k_uni v)); [intros [= <- <-]; fin|]. destruct (negb c); [intros [= <- <-]; fin|].
    destruct (negb (k_ref v)); [intros [= <- <-]; fin|]. destruct (k_shut v || k_closed v); intros [= <- <-]; fin.
  - intros [= <- <-]; fin.
Qed.
Lemma r_keeps cb s i d r : forall s1 r1, rstep cb s i d r = (s1, r1) -> q_users s1 = q_users s /\ (q_cleared s = true -> q_cleared s1 = true).
Proof.
  intros s1 r1. unfold rstep. destruct (nth_error (q_socks s) i) as [v|]; [|intros [= <- <-]; fin].
  destruct r as [| | |x|t|]; try (intros [= <- <-]; fin).
  - destruct d; intros [= <- <-]; fin.
  - destruct t as [|k ph|ann|ann k c|q]; [..|destruct q; intros [= <- <-]; fin];
    (match goal with |- context [tstep ?a ?b ?c] => destruct (tstep a b c) as [s2 t2] eqn:E end; intros [= <- <-]; exact (t_keeps _ _ _ _ _ E)).
Qed.
Lemma late_step cb s e u ann : q_cleared s = true -> (nth_error (q_users s) u = Some (TSendBegin ann) \/ user_done s u (SVal ann)) ->
  q_cleared (qstep cb s e) = true /\ (nth_error (q_users (qstep cb s e)) u = Some (TSendBegin ann) \/ user_done (qstep cb s e) u (SVal ann)).
Proof.
  intros C H. unfold user_done in *. destruct e as [j|i d]; cbn [qstep].
  - destruct (nth_error (q_users s) j) as [t|] eqn:Hj; [|split; assumption]. destruct (tstep None s t) as [s1 t1] eqn:E. destruct (t_keeps _ _ _ _ _ E) as (K1 & K2).
    cbn [set_users q_cleared q_users]. split; [now apply K2|]. rewrite K1, nth_put. destruct (Nat.eqb_spec u j) as [->|N]; [|exact H].
    rewrite Hj. right. destruct H as [H|H]; assert (t = _) by (injection (eq_trans (eq_sym Hj) H); intros X; exact X); subst t; cbn [tstep] in E; rewrite ?C in E; injection E as <- <-; reflexivity.
  - destruct (nth_error (q_recv s) i) as [r|]; [|split; assumption]. destruct (rstep cb s i d r) as [s1 r1] eqn:E. destruct (r_keeps _ _ _ _ _ _ _ E) as (K1 & K2).
    cbn [set_recv q_cleared q_users]. rewrite K1. split; [now apply K2|exact H].
Qed.
Lemma late_run cb u ann l : forall s, q_cleared s = true -> (nth_error (q_users s) u = Some (TSendBegin ann) \/ user_done s u (SVal ann)) ->
  nth_error (q_users (qrun cb s l)) u = Some (TSendBegin ann) \/ user_done (qrun cb s l) u (SVal ann).
Proof.
  induction l as [|e l IH]; intros s C H; [exact H|]. destruct (late_step cb s e u ann C H) as (C1 & H1). exact (IH _ C1 H1).
Qed.
Lemma L_C87_late_partial : forall cb s l l' r u ann, polite cb -> started s -> one_stop s ->
  user_done (qrun cb s l) 0 r -> nth_error (q_users (qrun cb s l)) u = Some (TSendBegin ann) ->
  (forall r', user_done (qrun cb s (l ++ l')) u r' -> r' = SVal ann) /\ user_done (qrun cb s (l ++ [User u])) u (SVal ann).
Proof.
  intros cb s l l' r u ann P St O D H. destruct (inv_run cb l P s (started_inv s St O)) as (IV & _). destruct (inv_done _ IV r D) as (_ & C & _). rewrite !qrun_app. split.
  - intros r' D'. unfold user_done in D'. destruct (late_run cb u ann l' _ C (or_introl H)) as [X|X]; [congruence|unfold user_done in X; congruence].
  - set (s1 := qrun cb s l) in *. unfold user_done. cbn [qrun fold_left qstep]. rewrite H. cbn [tstep]. rewrite C. cbn [set_users q_users]. rewrite nth_put, Nat.eqb_refl, H. reflexivity.
Qed.

(** ** What a send that returns has sent *)
Definition nosend (t : tpc) : Prop := match t with TSendBegin _ | TSend _ _ _ => False | _ => True end.
Definition rnosend (r : rpc) : Prop := match r with RIn t => nosend t | _ => True end.
Definition kinds (s : qst) : list bool := map k_uni (q_socks s).
Lemma kinds_put l k v v' : nth_error l k = Some v -> k_uni v' = k_uni v -> map k_uni (put l k v') = map k_uni l.
Proof. revert k. induction l as [|x l IH]; intros [|k] H E; try discriminate; cbn in *; [injection H as ->; now rewrite E|now rewrite IH]. Qed.
Ltac fin4 := repeat split.
Lemma stop_keeps self s t : nosend t -> forall s1 t1, tstep self s t = (s1, t1) -> nosend t1 /\ q_sent s1 = q_sent s /\ kinds s1 = kinds s /\ q_recv s1 = q_recv s.
Proof.
  intros N s1 t1. destruct t as [|k ph|ann|ann k c|q]; try (now destruct N); cbn [tstep].
  - destruct (q_cleared s); intros [= <- <-]; fin4.
  - destruct (nth_error (q_socks s) k) as [v|] eqn:V; [|intros [= <- <-]; fin4]. unfold kinds.
    destruct ph.
    + destruct (k_ref v); intros [= <- <-]; fin4.
    + intros [= <- <-]. destruct (k_ref v && negb (k_closed v)); fin4. cbn [set_socks q_socks]. now apply (kinds_put _ _ v).
    + destruct (k_ref v); intros [= <- <-]; fin4. cbn [set_socks q_socks]. now apply (kinds_put _ _ v).
    + intros [= <- <-]; fin4. cbn [set_socks q_socks]. now apply (kinds_put _ _ v).
    + destruct self as [i|]; [destruct (Nat.eqb i k); [intros [= <- <-]; fin4|]|]; destruct (nth_error (q_recv s) k) as [[]|]; intros [= <- <-]; fin4.
  - intros [= <- <-]; fin4.
Qed.
Lemma recv_keeps cb s i d r : mute cb -> rnosend r -> forall s1 r1, rstep cb s i d r = (s1, r1) -> rnosend r1 /\ q_sent s1 = q_sent s /\ kinds s1 = kinds s /\ q_recv s1 = q_recv s.
Proof.
  intros Mu N s1 r1. unfold rstep. destruct (nth_error (q_socks s) i) as [v|]; [|intros [= <- <-]; fin4; exact N].
  destruct r as [| | |x|t|]; try (intros [= <- <-]; fin4).
  - destruct (k_ref v); exact Logic.I.
  - destruct (k_ref v && _); exact Logic.I.
  - destruct d; intros [= <- <-]; fin4. destruct (k_shut v || k_closed v); exact Logic.I.
  - destruct (cb i x) eqn:E; try exact Logic.I. now destruct (Mu _ _ _ E).
  - destruct t as [|k ph|ann|ann k c|q]; try (now destruct N); [..|destruct q; intros [= <- <-]; fin4];
    (match goal with |- context [tstep ?a ?b ?c] => destruct (tstep a b c) as [s2 t2] eqn:E end; intros [= <- <-]; exact (stop_keeps _ _ _ N _ _ E)).
Qed.
Definition mainok (ann : bool) (t : tpc) (sent : list nat) : Prop :=
  match t with
  | TSendBegin a => a = ann /\ sent = []
  | TSend a k _ => a = ann /\ Forall (fun x => x < k) sent /\ (ann = false -> sent = [])
  | TDone r => r <> SRun /\ (ann = true -> forall b, r = SVal b -> b = true) /\ (ann = false -> (r = SVal true /\ length sent = 1) \/ (r <> SVal true /\ sent = []))
  | _ => False
  end.
Definition sorted_uni (kinds : list bool) (sent : list nat) : Prop := StronglySorted lt sent /\ Forall (fun k => nth_error kinds k = Some true) sent.
Lemma sorted_snoc l k : StronglySorted lt l -> Forall (fun x => x < k) l -> StronglySorted lt (l ++ [k]).
Proof.
  induction 1 as [|a l H IH F]; intros G; [repeat constructor|]. cbn. inversion G; subst. constructor; [now apply IH|]. apply Forall_app. split; [assumption|repeat constructor; assumption].
Qed.
Lemma main_step ann s t : mainok ann t (q_sent s) -> sorted_uni (kinds s) (q_sent s) -> forall s1 t1, tstep None s t = (s1, t1) ->
  mainok ann t1 (q_sent s1) /\ sorted_uni (kinds s) (q_sent s1) /\ kinds s1 = kinds s /\ q_recv s1 = q_recv s.
Proof.
  intros M So s1 t1. destruct t as [|k ph|a|a k c|q]; try (now destruct M); cbn [tstep].
  - destruct M as (-> & E). destruct (q_cleared s); intros [= <- <-].
    + split; [|repeat split; apply So]. cbn. split; [discriminate|]. split; [intros -> b [= <-]; reflexivity|]. intros ->. right. split; [discriminate|exact E].
    + split; [|repeat split; apply So]. cbn. rewrite E. repeat split. constructor.
  - destruct M as (-> & F & E). destruct (nth_error (q_socks s) k) as [v|] eqn:V.
    2:{ intros [= <- <-]. split; [|repeat split; apply So]. cbn. split; [discriminate|]. split; [intros -> b [= <-]; reflexivity|]. intros ->. right. split; [discriminate|now apply E]. }
    assert (Ft : Forall (fun x => x < S k) (q_sent s)) by (eapply Forall_impl; [|exact F]; cbn; lia).
    destruct (k_uni v) eqn:Uv; cbn [negb]; [|intros [= <- <-]; split; [cbn; auto|repeat split; apply So]].
    destruct c; cbn [negb]; [|intros [= <- <-]; split; [destruct (k_ref v); cbn; auto|repeat split; apply So]].
    destruct (k_ref v); cbn [negb]; [|intros [= <- <-]; split; [|repeat split; apply So]; cbn; split; [discriminate|split; [discriminate|]]; intros ->; right; split; [discriminate|now apply E]].
    destruct (k_shut v || k_closed v); [intros [= <- <-]; split; [|repeat split; apply So]; cbn; split; [discriminate|split; [discriminate|]]; intros ->; right; split; [discriminate|now apply E]|].
    intros [= <- <-]. cbn [add_sent q_sent]. split; [|split; [|split; reflexivity]].
    + destruct ann; cbn.
      * split; [reflexivity|]. split; [|discriminate]. apply Forall_app. split; [exact Ft|repeat constructor].
      * split; [discriminate|]. split; [discriminate|]. intros _. left. rewrite (E eq_refl). split; reflexivity.
    + destruct So as (S1 & S2). split; [now apply sorted_snoc|]. apply Forall_app. split; [exact S2|]. constructor; [|constructor]. unfold kinds. rewrite nth_error_map, V. cbn. now rewrite Uv.
  - intros [= <- <-]. split; [exact M|]. repeat split; apply So.
Qed.
Definition JJ (cb : nat -> nat -> deed) (u : nat) (ann : bool) (ks : list bool) (s : qst) : Prop :=
  kinds s = ks /\ (forall j t, nth_error (q_users s) j = Some t -> j <> u -> nosend t) /\ Forall rnosend (q_recv s) /\
  sorted_uni ks (q_sent s) /\ exists t, nth_error (q_users s) u = Some t /\ mainok ann t (q_sent s).
Lemma JJ_step cb u ann ks s e : mute cb -> JJ cb u ann ks s -> JJ cb u ann ks (qstep cb s e).
Proof.
  intros Mu (K & O & R & So & t & T & M). destruct e as [j|i d]; cbn [qstep].
  - destruct (nth_error (q_users s) j) as [tj|] eqn:Hj; [|repeat split; try assumption; try apply So; eauto]. destruct (tstep None s tj) as [s1 t1] eqn:E. destruct (t_keeps _ _ _ _ _ E) as (K1 & _).
    destruct (Nat.eq_dec j u) as [->|N].
    + assert (tj = t) by congruence. subst tj. rewrite <- K in So. destruct (main_step ann s t M So s1 t1 E) as (M1 & So1 & K2 & R1). rewrite K in *.
      unfold JJ. unfold kinds in *. cbn [set_users q_socks q_users q_recv q_sent]. split; [congruence|]. split; [|split; [now rewrite R1|split; [exact So1|]]].
      * intros j2 t2. rewrite K1, nth_put. destruct (Nat.eqb_spec j2 u) as [->|]; [congruence|]. apply O.
      * exists t1. split; [|exact M1]. rewrite K1, nth_put, Nat.eqb_refl, Hj. reflexivity.
    + destruct (stop_keeps None s tj (O _ _ Hj N) s1 t1 E) as (N1 & S1 & K2 & R1). unfold JJ. unfold kinds in *. cbn [set_users q_socks q_users q_recv q_sent].
      split; [congruence|]. split; [|split; [now rewrite R1|rewrite S1; split; [exact So|]]].
      * intros j2 t2. rewrite K1, nth_put. destruct (Nat.eqb_spec j2 j) as [->|]; [rewrite Hj; intros [= <-] _; exact N1|apply O].
      * exists t. split; [|exact M]. rewrite K1, nth_put. destruct (Nat.eqb_spec u j); [congruence|exact T].
  - destruct (nth_error (q_recv s) i) as [r|] eqn:Hr; [|repeat split; try assumption; try apply So; eauto]. destruct (rstep cb s i d r) as [s1 r1] eqn:E. destruct (r_keeps _ _ _ _ _ _ _ E) as (K1 & _).
    assert (Rr : rnosend r) by (rewrite Forall_forall in R; apply R; eapply nth_error_In; eauto).
    destruct (recv_keeps cb s i d r Mu Rr s1 r1 E) as (N1 & S1 & K2 & R1). unfold JJ. unfold kinds in *. cbn [set_recv q_socks q_users q_recv q_sent]. rewrite K1, S1.
    split; [congruence|]. split; [exact O|]. split; [rewrite R1; now apply Forall_put|]. split; [exact So|eauto].
Qed.
Lemma L_C87_sent : forall cb s u ann l, mute cb -> one_sender u ann s -> let s1 := qrun cb s l in
  in_order (q_socks s) (q_sent s1) /\
  (forall r, user_done s1 u r -> r <> SRun /\ (ann = true -> forall b, r = SVal b -> b = true)) /\
  (ann = false -> (user_done s1 u (SVal true) /\ length (q_sent s1) = 1) \/ (~ user_done s1 u (SVal true) /\ q_sent s1 = [])).
Proof.
  intros cb s u ann l Mu (T & O & R & E). assert (J : JJ cb u ann (kinds s) (qrun cb s l)).
  { assert (J0 : JJ cb u ann (kinds s) s).
    { split; [reflexivity|]. split; [intros j t Hj N; rewrite (O j t Hj N); exact Logic.I|]. split; [eapply Forall_impl; [|exact R]; intros [] H; try exact Logic.I; destruct H|].
      split; [rewrite E; split; constructor|]. exists (TSendBegin ann). split; [exact T|]. cbn. auto. }
    generalize (kinds s) J0. clear - Mu. revert s. induction l as [|e l IH]; intros s ks J; [exact J|]. cbn [qrun fold_left]. apply IH. now apply JJ_step. }
  destruct J as (_ & _ & _ & (S1 & S2) & t & Tt & M). cbv zeta. split; [split; [exact S1|]|].
  - eapply Forall_impl; [|exact S2]. cbn. intros k Hk. unfold kinds in Hk. rewrite nth_error_map in Hk. destruct (nth_error (q_socks s) k) as [v|]; [|discriminate]. exists v. split; [reflexivity|]. cbn in Hk. congruence.
  - unfold user_done. rewrite Tt. split.
    + intros r [= ->]. destruct M as (M1 & M2 & _). auto.
    + intros Ha. destruct t as [|k ph|a|a k c|q]; try (now destruct M).
      * right. split; [discriminate|apply M].
      * right. split; [discriminate|]. destruct M as (_ & _ & M). now apply M.
      * destruct M as (_ & _ & M). destruct (M Ha) as [(-> & L)|(N & L)]; [left; auto|right]. split; [congruence|exact L].
Qed.
