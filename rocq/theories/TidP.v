(** Lemmas for C39. *)
From Verif Require Import PyBase NodeM TidM SpecTid WireP.

Lemma nth_put {A} (l : list A) i x j : nth_error (put l i x) j =
  if Nat.eqb j i then match nth_error l i with Some _ => Some x | None => None end else nth_error l j.
Proof.
  revert i j. induction l as [|y l IH]; intros i j.
  - cbn [put]. rewrite !(proj2 (nth_error_None _ _)) by (cbn; lia). now destruct (Nat.eqb j i).
  - destruct i, j; cbn [put nth_error Nat.eqb]; try reflexivity. apply IH.
Qed.
Lemma length_put {A} (l : list A) i x : length (put l i x) = length l.
Proof. revert i; induction l as [|y l IH]; intros [|i]; cbn; congruence. Qed.
Lemma trun_app s a b : trun s (a ++ b) = let '(s1, e1) := trun s a in let '(s2, e2) := trun s1 b in (s2, e1 ++ e2).
Proof.
  revert s. induction a as [|i a IH]; intros s; cbn [app trun].
  - now destruct (trun s b).
  - destruct (tstep s i) as [s1 e1]. rewrite IH. destruct (trun s1 a) as [s2 e2]. destruct (trun s2 b) as [s3 e3]. now rewrite app_assoc.
Qed.
Lemma tids_app a b : tids (a ++ b) = tids a ++ tids b.
Proof. unfold tids. apply flat_map_app. Qed.
Lemma begun_app a b : begun (a ++ b) = begun a ++ begun b.
Proof. unfold begun. apply flat_map_app. Qed.

(** ** Races *)
Lemma L_C39_duplicate_refuted : forall t, 0 <= t < 65535 -> exists sched s' evs,
  trun (threads 2 t) sched = (s', evs) /\ tids evs = [t + 1; t + 1].
Proof.
  intros t H. exists [0; 1; 0; 1; 0; 1; 0; 1]%nat. eexists _, _. unfold threads.
  cbn [repeat trun tstep nth_error t_pcs t_tid put]. rewrite (proj2 (Z.ltb_ge 0xFFFF (t + 1))) by lia. cbn. split; reflexivity.
Qed.

(** Thread [i] of two runs [k] calls alone. *)
Lemma solo t b : 0 <= t < 65535 -> trun (mktst t [TIdle; b]) [0; 0; 0; 0]%nat = (mktst (t + 1) [TIdle; b], [TBegin 0; TRet 0 (t + 1)]).
Proof. intros H. cbn [trun tstep nth_error t_pcs t_tid put]. rewrite (proj2 (Z.ltb_ge 0xFFFF (t + 1))) by lia. reflexivity. Qed.
Lemma climb k : forall t b, 0 <= t -> t + Z.of_nat k <= 65535 -> exists sched evs,
  trun (mktst t [TIdle; b]) sched = (mktst (t + Z.of_nat k) [TIdle; b], evs).
Proof.
  induction k as [|k IH]; intros t b L H; [exists [], []; cbn; do 2 f_equal; lia|].
  destruct (IH (t + 1) b ltac:(lia) ltac:(lia)) as (sc & ev & E). exists ([0; 0; 0; 0]%nat ++ sc). eexists.
  rewrite trun_app, solo by lia. rewrite E. do 2 f_equal. lia.
Qed.
(** One turn of the race: the counter keeps growing past 0xFFFF. *)
Lemma race v : 65535 < v -> trun (mktst v [TTest; TIdle]) [1; 0; 0; 1; 0; 0; 1; 1; 0; 1]%nat =
  (mktst (v + 2) [TTest; TIdle], [TBegin 1; TRet 0 (v + 1); TBegin 0; TRet 1 (v + 2)]).
Proof.
  intros H. cbn [trun tstep nth_error t_pcs t_tid put].
  rewrite (proj2 (Z.ltb_lt 0xFFFF v)) by lia. cbn [trun tstep nth_error t_pcs t_tid put].
  rewrite (proj2 (Z.ltb_lt 0xFFFF (v + 1))) by lia. cbn [app trun tstep nth_error t_pcs t_tid put]. replace (v + 1 + 1) with (v + 2) by lia. reflexivity.
Qed.
Lemma races k : forall v, 65535 < v -> exists sched evs, trun (mktst v [TTest; TIdle]) sched = (mktst (v + 2 * Z.of_nat k) [TTest; TIdle], evs) /\
  (k <> 0%nat -> In (TRet 1 (v + 2 * Z.of_nat k)) evs).
Proof.
  induction k as [|k IH]; intros v H.
  - exists [], []. split; [cbn; do 2 f_equal; lia|congruence].
  - destruct (IH (v + 2) ltac:(lia)) as (sc & ev & E & I). exists ([1; 0; 0; 1; 0; 0; 1; 1; 0; 1]%nat ++ sc). eexists.
    rewrite trun_app, race, E by lia. split; [do 2 f_equal; lia|]. intros _. rewrite in_app_iff.
    replace (v + 2 * Z.of_nat (S k)) with (v + 2 + 2 * Z.of_nat k) by lia. destruct k; [left|right; apply I; lia].
    replace (v + 2 + 2 * Z.of_nat 0) with (v + 2) by lia. cbn. auto.
Qed.
Lemma L_C39_range_refuted : forall t N, 0 <= t <= 65535 -> exists sched s' evs u,
  trun (threads 2 t) sched = (s', evs) /\ In u (tids evs) /\ N < u.
Proof.
  intros t N H. set (k := S (Z.to_nat N)).
  destruct (climb (Z.to_nat (65535 - t)) t TIdle ltac:(lia) ltac:(lia)) as (s1 & e1 & E1).
  destruct (races k 65536 ltac:(lia)) as (s2 & e2 & E2 & I).
  exists (s1 ++ [0; 0]%nat ++ s2). eexists _, _, (65536 + 2 * Z.of_nat k).
  unfold threads. cbn [repeat]. rewrite trun_app, E1. replace (t + Z.of_nat (Z.to_nat (65535 - t))) with 65535 by lia.
  rewrite trun_app. cbn [trun tstep nth_error t_pcs t_tid put]. change (65535 + 1) with 65536. rewrite E2. split; [reflexivity|].
  split; [|lia]. rewrite !tids_app, !in_app_iff. right. right. unfold tids. rewrite in_flat_map. eexists. split; [apply I; unfold k; lia|]. now left.
Qed.

(** ** What holds *)
(** Values only grow by calls. *)
Definition below (b : Z) (s : tst) : Prop :=
  t_tid s <= b /\ (0 <= t_tid s) /\
  forall j p, nth_error (t_pcs s) j = Some p -> match p with TInc v => 0 <= v < b | TTest | TReset | TLoad => 1 <= t_tid s | TIdle => True end.
Lemma below_step b s i s' e : below b s -> 0 <= b -> tstep s i = (s', e) -> below (b + zlen (begun e)) s' /\ Forall (fun t => 1 <= t <= b) (tids e).
Proof.
  intros (B & P & L) Hb H. unfold tstep in H. destruct (nth_error (t_pcs s) i) as [p|] eqn:E;
    [|injection H as <- <-; cbn; rewrite Z.add_0_r; split; [split; auto|constructor]].
  pose proof (L i p E) as Lp. unfold zlen.
  assert (K : forall t p', 1 <= t \/ t = t_tid s -> match p' with TInc v => 0 <= v < b + 1 | TTest | TReset | TLoad => 1 <= t | TIdle => True end ->
    forall c, b <= c -> (match p' with TInc v => v < c | _ => True end) -> t <= c -> below c (mktst t (put (t_pcs s) i p'))).
  { intros t p' Ht Hp c Hc Hv Tc. split; [cbn [t_tid]; lia|]. split; [cbn [t_tid]; lia|]. cbn [t_tid t_pcs]. intros j q. rewrite nth_put, E.
    destruct (Nat.eqb_spec j i).
    - intros Q. assert (q = p') by congruence. subst q. destruct p'; auto; lia.
    - intros Q. specialize (L j q Q). destruct q; auto; lia. }
  destruct p; injection H as <- <-; cbn [begun tids flat_map app length]; (split; [|repeat constructor; lia]); apply K; auto; try lia.
  all: try (destruct (0xFFFF <? t_tid s); auto; lia).
Qed.
Lemma below_run sched : forall b s s' e, below b s -> 0 <= b -> trun s sched = (s', e) ->
  below (b + zlen (begun e)) s' /\ Forall (fun t => 1 <= t <= b + zlen (begun e)) (tids e).
Proof.
  induction sched as [|i r IH]; intros b s s' e B Hb H; cbn [trun] in H.
  - injection H as <- <-. cbn. rewrite Z.add_0_r. split; [exact B|constructor].
  - destruct (tstep s i) as [s1 e1] eqn:E1. destruct (trun s1 r) as [s2 e2] eqn:E2. injection H as <- <-.
    destruct (below_step b s i s1 e1 B Hb E1) as (B1 & F1). pose proof (zlen_nonneg (begun e1)). 
    destruct (IH _ s1 s2 e2 B1 ltac:(lia) E2) as (B2 & F2). pose proof (zlen_nonneg (begun e2)). rewrite begun_app, tids_app. replace (b + zlen (begun e1 ++ begun e2)) with (b + zlen (begun e1) + zlen (begun e2)) by (unfold zlen; rewrite app_length; lia).
    split; [exact B2|]. apply Forall_app. split; [|exact F2]. eapply Forall_impl; [|exact F1]. cbn. intros; lia.
Qed.
Lemma L_C39_range_partial : forall n t sched s' evs, 0 <= t -> trun (threads n t) sched = (s', evs) ->
  Forall (fun u => 1 <= u) (tids evs) /\ (t + zlen (begun evs) <= 65535 -> Forall (fun u => 1 <= u <= 65535) (tids evs)).
Proof.
  intros n t sched s' evs T H.
  destruct (below_run sched t (threads n t) s' evs) as (_ & F); auto.
  { split; [cbn; lia|]. split; [exact T|]. cbn [threads t_pcs]. intros j p Q. apply nth_error_In, repeat_spec in Q. subst p. exact I. }
  split; [|intros L]; (eapply Forall_impl; [|exact F]; cbn; intros; lia).
Qed.

(** One call at a time: [t] the value when the current call began, [c] the calls done. *)
Definition serial (s : tst) (t : Z) : Prop :=
  0 <= t <= 65535 /\
  ((forall j p, nth_error (t_pcs s) j = Some p -> p = TIdle) /\ t_tid s = t \/
   exists i p, nth_error (t_pcs s) i = Some p /\ (forall j q, j <> i -> nth_error (t_pcs s) j = Some q -> q = TIdle) /\
   match p with
   | TIdle => False
   | TInc v => v = t /\ t_tid s = t
   | TTest => t_tid s = t + 1
   | TReset => t_tid s = 65536 /\ t = 65535
   | TLoad => t_tid s = t mod 65535 + 1
   end).
Fixpoint counted (t : Z) (k : nat) : list Z := match k with O => [] | S k' => t mod 65535 + 1 :: counted (t mod 65535 + 1) k' end.
Lemma serial_step s i s1 e1 t : serial s t -> alone s i -> tstep s i = (s1, e1) -> 
  (tids e1 = [] /\ serial s1 t) \/ (tids e1 = [t mod 65535 + 1] /\ serial s1 (t mod 65535 + 1)).
Proof.
  intros (T & S) A H. unfold tstep in H. destruct (nth_error (t_pcs s) i) as [p|] eqn:E; [|injection H as <- <-; left; split; [reflexivity|split; assumption]].
  assert (St : match p with TIdle => t_tid s = t | TInc v => v = t /\ t_tid s = t | TTest => t_tid s = t + 1
    | TReset => t_tid s = 65536 /\ t = 65535 | TLoad => t_tid s = t mod 65535 + 1 end).
  { destruct S as [(S & St)|(j & q & Ej & O & St)].
    - rewrite (S i p E). exact St.
    - destruct (Nat.eq_dec j i) as [->|N]; [replace p with q by congruence; destruct q; tauto|].
      pose proof (A j q N Ej). subst q. contradiction. }
  assert (Ot : forall p' j q, j <> i -> nth_error (put (t_pcs s) i p') j = Some q -> q = TIdle).
  { intros p' j q N. rewrite nth_put. destruct (Nat.eqb_spec j i); [contradiction|]. apply A; exact N. }
  assert (Mi : forall p', nth_error (put (t_pcs s) i p') i = Some p') by (intros; rewrite nth_put, Nat.eqb_refl, E; reflexivity).
  pose proof (Z.mod_pos_bound t 65535 ltac:(lia)) as MB.
  assert (MM : t < 65535 /\ t mod 65535 = t \/ t = 65535 /\ t mod 65535 = 0).
  { destruct (Z.eq_dec t 65535) as [->|]; [right; auto|left; split; [lia|apply Z.mod_small; lia]]. }
  destruct p; injection H as <- <-; cbn [tids flat_map app].
  - left. split; [reflexivity|]. split; [exact T|]. right. exists i, (TInc (t_tid s)). cbn [t_pcs t_tid]. repeat split; eauto.
  - left. split; [reflexivity|]. split; [exact T|]. right. exists i, TTest. cbn [t_pcs t_tid]. repeat split; eauto. lia.
  - left. split; [reflexivity|]. split; [exact T|]. right. eexists i, _. cbn [t_pcs t_tid]. split; [apply Mi|]. split; [apply Ot|].
    destruct (Z.ltb_spec 0xFFFF (t_tid s)); lia.
  - left. split; [reflexivity|]. split; [exact T|]. right. exists i, TLoad. cbn [t_pcs t_tid]. repeat split; eauto. lia.
  - right. split; [congruence|]. split; [lia|]. left. cbn [t_pcs t_tid]. split; [|exact St].
    intros j q Q. destruct (Nat.eq_dec j i) as [->|N]; [|exact (Ot _ _ _ N Q)]. rewrite Mi in Q. congruence.
Qed.
Lemma serial_run sched : forall s t s' e, serial s t -> one_at_a_time s sched -> trun s sched = (s', e) -> exists k, tids e = counted t k.
Proof.
  induction sched as [|i r IH]; intros s t s' e S O H; cbn [trun] in H.
  - injection H as <- <-. exists 0%nat. reflexivity.
  - destruct (tstep s i) as [s1 e1] eqn:E1. destruct (trun s1 r) as [s2 e2] eqn:E2. injection H as <- <-.
    destruct O as (A & O). rewrite E1 in O. cbn [fst] in O. rewrite tids_app.
    destruct (serial_step s i s1 e1 t S A E1) as [(-> & S1)|(-> & S1)]; destruct (IH _ _ _ _ S1 O E2) as (k & ->).
    + exists k. reflexivity.
    + exists (Datatypes.S k). reflexivity.
Qed.
Lemma counted_nth k : forall t i u, 0 <= t -> nth_error (counted t k) i = Some u -> u = (t + Z.of_nat i) mod 65535 + 1.
Proof.
  induction k as [|k IH]; intros t [|i] u T H; cbn [counted nth_error] in H; try discriminate.
  - rewrite Z.add_0_r. congruence.
  - apply IH in H; [|pose proof (Z.mod_pos_bound t 65535 ltac:(lia)); lia]. rewrite H. f_equal.
    replace (t mod 65535 + 1 + Z.of_nat i) with (t mod 65535 + (Z.of_nat (S i))) by lia. rewrite Zplus_mod_idemp_l. reflexivity.
Qed.
Lemma L_C39_serial_partial : forall n t sched s' evs, 0 <= t <= 65535 -> one_at_a_time (threads n t) sched ->
  trun (threads n t) sched = (s', evs) ->
  (forall u, In u (tids evs) -> 1 <= u <= 65535) /\
  (forall i j u v, (i < j)%nat -> Z.of_nat j - Z.of_nat i < 65535 ->
     nth_error (tids evs) i = Some u -> nth_error (tids evs) j = Some v -> u <> v).
Proof.
  intros n t sched s' evs T O H.
  destruct (serial_run sched (threads n t) t s' evs) as (k & ->); auto.
  { split; [exact T|]. left. split; [|reflexivity]. cbn. intros j p Q. now apply nth_error_In, repeat_spec in Q. }
  split.
  - intros u I. apply In_nth_error in I. destruct I as (i & I). apply counted_nth in I; [|lia].
    pose proof (Z.mod_pos_bound (t + Z.of_nat i) 65535 ltac:(lia)). lia.
  - intros i j u v L D U V. apply counted_nth in U, V; lia.
Qed.
(** A call that is not interrupted is [next_TID] of NodeM. *)
Lemma L_C39_sequential : forall g, exists k, trun (threads 1 (g_tid g)) (repeat 0%nat k) =
  (threads 1 (g_tid (fst (next_TID g))), [TBegin 0; TRet 0 (snd (next_TID g))]).
Proof.
  intros g. unfold next_TID, threads. cbn [repeat fst snd g_tid].
  destruct (0xFFFF <? g_tid g + 1) eqn:E; [exists 5%nat|exists 4%nat]; cbn [repeat trun tstep nth_error t_pcs t_tid put]; rewrite E; reflexivity.
Qed.
