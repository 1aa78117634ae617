(** Lemmas for C86 and C87. *)
From Verif Require Import PyBase TidM TidP StopM SpecStop.
Import StopM.
Local Open Scope nat_scope.

Lemma qrun_app cb a : forall s b, qrun cb s (a ++ b) = qrun cb (qrun cb s a) b.
Proof. intros s b. unfold qrun. apply fold_left_app. Qed.

Definition issend (t : tpc) : Prop := match t with TStopBegin | TStop _ _ => False | _ => True end.
Definition rok (r : rpc) : Prop := match r with RIn t => issend t | _ => True end.
Definition same (s s1 : qst) : Prop := q_socks s1 = q_socks s /\ q_cleared s1 = q_cleared s /\
  q_recv s1 = q_recv s /\ q_users s1 = q_users s.

Lemma send_step self s t : issend t -> forall s1 t1, tstep self s t = (s1, t1) -> issend t1 /\ same s s1 /\ q_calls s1 = q_calls s.
Proof.
  intros Ht s1 t1. destruct t as [|k ph|ann|ann k c|r]; try (now destruct Ht); cbn [tstep].
  - destruct (q_cleared s); intros [= <- <-]; repeat split.
  - destruct (nth_error (q_socks s) k) as [v|]; [|intros [= <- <-]; repeat split].
    destruct (negb (k_uni v)); [intros [= <- <-]; repeat split|].
    destruct (negb c); [intros [= <- <-]; destruct (k_ref v); repeat split|].
    destruct (negb (k_ref v)); [intros [= <- <-]; repeat split|].
    destruct (k_shut v || k_closed v); [intros [= <- <-]; repeat split|].
    intros [= <- <-]. destruct ann; repeat split.
  - intros [= <- <-]; repeat split.
Qed.
(** What a receiving thread does to the rest of the state when its callbacks do not stop the node. *)
Lemma recv_step cb s i d r : polite cb -> rok r -> forall s1 r1, rstep cb s i d r = (s1, r1) -> rok r1 /\ same s s1 /\ (r = REnd -> r1 = REnd).
Proof.
  intros Hp Hr s1 r1. unfold rstep. destruct (nth_error (q_socks s) i) as [v|]; [|intros [= <- <-]; repeat split; auto].
  destruct r as [| | |x|t|].
  - intros [= <- <-]. destruct (k_ref v); repeat split; discriminate.
  - intros [= <- <-]. destruct (k_ref v && _); repeat split; discriminate.
  - destruct d; intros [= <- <-]; [|destruct (k_shut v || k_closed v)]; repeat split; discriminate.
  - intros [= <- <-]. pose proof (Hp i x) as Hpx. destruct (cb i x); try (now destruct Hpx); repeat split; discriminate.
  - destruct t as [|k ph|ann|ann k c|q]; try (now destruct Hr).
    + destruct (tstep (Some i) s (TSendBegin ann)) as [s2 t2] eqn:E. intros [= <- <-].
      destruct (send_step _ _ _ Hr _ _ E) as (A & B & _). split; [exact A|]. split; [exact B|discriminate].
    + destruct (tstep (Some i) s (TSend ann k c)) as [s2 t2] eqn:E. intros [= <- <-].
      destruct (send_step _ _ _ Hr _ _ E) as (A & B & _). split; [exact A|]. split; [exact B|discriminate].
    + destruct q; intros [= <- <-]; repeat split; discriminate.
  - intros [= <- <-]; repeat split.
Qed.

Definition fresh (v : sk) (r : rpc) : Prop := live v \/ dead v /\ r = REnd.
Definition stage (U : tpc) (j : nat) (v : sk) (r : rpc) : Prop :=
  match U with
  | TStopBegin => fresh v r
  | TStop k ph => (j < k -> dead v /\ r = REnd) /\ (k < j -> fresh v r) /\
      (j = k -> match ph with PCheck => fresh v r | PShut => live v | PClose => k_ref v = true
                | PNone => k_closed v = true | PJoin => dead v end)
  | _ => dead v /\ r = REnd
  end.
Definition ustage (U : tpc) (n : nat) (c : bool) : Prop :=
  match U with
  | TStopBegin => c = false
  | TStop k ph => c = false /\ k <= n /\ (ph <> PCheck -> k < n)
  | TDone q => q = SVal true /\ c = true
  | _ => False
  end.
Definition INV (s : qst) : Prop := exists U us, q_users s = U :: us /\ Forall issend us /\
  length (q_recv s) = length (q_socks s) /\ (forall i r, nth_error (q_recv s) i = Some r -> rok r) /\
  ustage U (length (q_socks s)) (q_cleared s) /\
  forall j v r, nth_error (q_socks s) j = Some v -> nth_error (q_recv s) j = Some r -> stage U j v r.

Lemma started_inv s : started s -> one_stop s -> INV s.
Proof.
  intros (Hc & Hl & Hs) (us & Hu & Hus). exists TStopBegin, us. split; [exact Hu|]. split.
  { eapply Forall_impl; [|exact Hus]. intros t (ann & ->). exact I. }
  split; [exact Hl|]. split.
  - intros i r Hr. destruct (nth_error (q_socks s) i) as [v|] eqn:Hv.
    + destruct (Hs _ _ _ Hv Hr) as (O & _). destruct r; [..|destruct O|]; exact I.
    + apply nth_error_None in Hv. assert (nth_error (q_recv s) i <> None) by congruence. apply nth_error_Some in H. lia.
  - split; [exact Hc|]. intros j v r Hv Hr. apply (Hs _ _ _ Hv Hr).
Qed.
Lemma Forall_put {A} (P : A -> Prop) x : forall l i, Forall P l -> P x -> Forall P (put l i x).
Proof. induction l as [|y l IH]; intros [|i] H Hx; cbn; auto; inversion H; subst; constructor; auto. Qed.

Definition rr (n : nat) (r : rpc) : nat :=
  match r with
  | RIn (TSendBegin _) => 2 * n + 5
  | RIn (TSend _ k c) => 2 * (n - k) + (if c then 3 else 4)
  | RIn _ => 2
  | RCheck | RLoad => 1
  | RWait => 2 * n + 7 | RCall _ => 2 * n + 6
  | REnd => 0
  end.
Lemma rr_max n r : rr n r <= 2 * n + 7.
Proof. destruct r as [| | |x|[|k ph|ann|ann k c|q]|]; cbn [rr]; try lia. destruct c; lia. Qed.
Lemma rr_down cb s i d r v : polite cb -> rok r -> nth_error (q_socks s) i = Some v -> dead v -> r <> REnd ->
  forall s1 r1, rstep cb s i d r = (s1, r1) -> rr (length (q_socks s)) r1 < rr (length (q_socks s)) r.
Proof.
  intros Hp Hr Hv (D1 & D2) Hne s1 r1. unfold rstep. rewrite Hv, D1, D2. rewrite Bool.orb_true_r. set (n := length (q_socks s)).
  destruct r as [| | |x|t|]; cbn [andb negb].
  - intros [= <- <-]. cbn; lia.
  - intros [= <- <-]. cbn; lia.
  - destruct d; intros [= <- <-]; cbn [rr]; lia.
  - intros [= <- <-]. pose proof (Hp i x) as Hpx. destruct (cb i x); try (now destruct Hpx); cbn [rr]; lia.
  - destruct t as [|k ph|ann|ann k c|q]; try (now destruct Hr).
    + cbn [tstep]. destruct (q_cleared s); intros [= <- <-]; cbn [rr]; lia.
    + cbn [tstep]. destruct (nth_error (q_socks s) k) as [w|] eqn:Hk.
      * assert (k < n) by (apply nth_error_Some; rewrite Hk; discriminate).
        destruct (negb (k_uni w)); [intros [= <- <-]; cbn [rr]; destruct c; lia|].
        destruct c; cbn [negb].
        -- destruct (negb (k_ref w)); [intros [= <- <-]; cbn [rr]; lia|].
           destruct (k_shut w || k_closed w); [intros [= <- <-]; cbn [rr]; lia|].
           intros [= <- <-]. destruct ann; cbn [rr]; lia.
        -- intros [= <- <-]. destruct (k_ref w); cbn [rr]; lia.
      * intros [= <- <-]. cbn [rr]. destruct c; lia.
    + destruct q; intros [= <- <-]; cbn [rr]; lia.
  - now destruct Hne.
Qed.

Definition um (n : nat) (rs : list rpc) (U : tpc) : nat :=
  match U with
  | TStopBegin => n * (2 * n + 13) + 2
  | TStop k PCheck => (n - k) * (2 * n + 13) + 1
  | TStop k PShut => (n - S k) * (2 * n + 13) + 2 * n + 13
  | TStop k PClose => (n - S k) * (2 * n + 13) + 2 * n + 12
  | TStop k PNone => (n - S k) * (2 * n + 13) + 2 * n + 11
  | TStop k PJoin => (n - S k) * (2 * n + 13) + 2 + rr n (nth k rs REnd)
  | _ => 0
  end.
Definition need (rs : list rpc) (U : tpc) : option (option nat) :=
  match U with
  | TDone _ => None
  | TStop k PJoin => match nth_error rs k with Some REnd => Some None | _ => Some (Some k) end
  | _ => Some None
  end.
Definition matches (e : turn) (nd : option (option nat)) : Prop :=
  match nd with
  | None => True
  | Some None => e = User 0
  | Some (Some k) => exists d, e = Recv k d
  end.
Definition head_pc (s : qst) : tpc := hd TStopBegin (q_users s).
Definition MU (s : qst) : nat := um (length (q_socks s)) (q_recv s) (head_pc s).
Definition ND (s : qst) : option (option nat) := need (q_recv s) (head_pc s).

(** The step of the thread that stops. *)
Lemma stop_step s U : length (q_recv s) = length (q_socks s) -> ustage U (length (q_socks s)) (q_cleared s) ->
  (forall j v r, nth_error (q_socks s) j = Some v -> nth_error (q_recv s) j = Some r -> stage U j v r) ->
  forall s1 U1, tstep None s U = (s1, U1) ->
  q_recv s1 = q_recv s /\ q_users s1 = q_users s /\ length (q_socks s1) = length (q_socks s) /\ q_calls s1 = q_calls s /\
  ustage U1 (length (q_socks s)) (q_cleared s1) /\
  (forall j v r, nth_error (q_socks s1) j = Some v -> nth_error (q_recv s) j = Some r -> stage U1 j v r) /\
  (um (length (q_socks s)) (q_recv s) U1 < um (length (q_socks s)) (q_recv s) U \/ U1 = U /\ s1 = s /\ (need (q_recv s) U = Some None -> False)).
Proof.
  intros Hl Hu Hs s1 U1. set (n := length (q_socks s)) in *.
  assert (HE : forall k, k < n -> forall w, nth_error (q_socks s) k = Some w -> exists r, nth_error (q_recv s) k = Some r).
  { intros k Hk w Hw. destruct (nth_error (q_recv s) k) eqn:E; [eauto|]. apply nth_error_None in E. lia. }
  destruct U as [|k ph|ann|ann k c|q]; try (now destruct Hu); cbn [tstep].
  - cbn in Hu. rewrite Hu. intros [= <- <-]. repeat split; try assumption; try lia; try (intros H; lia).
    + intros H. now destruct H.
    + intros _. apply (Hs _ _ _ H H0).
    + intros ->. apply (Hs _ _ _ H H0).
    + left. cbn [um]. replace (n - 0) with n by lia. lia.
  - destruct Hu as (Hc & Hk & Hph). destruct (nth_error (q_socks s) k) as [v|] eqn:Hv.
    2:{ intros [= <- <-]. apply nth_error_None in Hv. assert (ph = PCheck) by (destruct ph; auto; exfalso; assert (k < n) by (apply Hph; discriminate); unfold n in *; lia). subst ph.
        assert (HH : forall j w r, nth_error (q_socks s) j = Some w -> nth_error (q_recv s) j = Some r -> dead w /\ r = REnd).
        { intros j w r H H0. apply (Hs j w r H H0). assert (j < length (q_socks s)) by (apply nth_error_Some; rewrite H; discriminate). lia. }
        split; [reflexivity|]. split; [reflexivity|]. split; [reflexivity|]. split; [reflexivity|]. split; [split; reflexivity|]. split; [exact HH|].
        left. cbn [um]. lia. }
    assert (Hkn : k < n) by (apply nth_error_Some; rewrite Hv; discriminate).
    destruct (HE k Hkn v Hv) as (r0 & Hr0). pose proof (Hs k v r0 Hv Hr0) as (_ & _ & Hst). specialize (Hst eq_refl).
    assert (Hmul : (n - k) * (2 * n + 13) = (n - S k) * (2 * n + 13) + (2 * n + 13)) by (replace (n - k) with (S (n - S k)) by lia; cbn [Nat.mul]; lia).
    assert (Hput : forall v' ph', (match ph' with PCheck => fresh v' r0 | PShut => live v' | PClose => k_ref v' = true | PNone => k_closed v' = true | PJoin => dead v' end) ->
      forall j w r, nth_error (put (q_socks s) k v') j = Some w -> nth_error (q_recv s) j = Some r -> stage (TStop k ph') j w r).
    { intros v' ph' Hx j w r Hw Hr. rewrite nth_put in Hw. destruct (Nat.eqb j k) eqn:Ejk.
      - apply Nat.eqb_eq in Ejk. subst j. rewrite Hv in Hw. injection Hw as <-. rewrite Hr0 in Hr. injection Hr as <-.
        cbn [stage]. split; [lia|]. split; [lia|]. intros _. exact Hx.
      - apply Nat.eqb_neq in Ejk. destruct (Hs j w r Hw Hr) as (A & B & _). cbn [stage]. split; [exact A|]. split; [exact B|]. intros ->. now destruct Ejk. }
    assert (Hself : forall ph', (match ph' with PCheck => fresh v r0 | PShut => live v | PClose => k_ref v = true | PNone => k_closed v = true | PJoin => dead v end) ->
      forall j w r, nth_error (q_socks s) j = Some w -> nth_error (q_recv s) j = Some r -> stage (TStop k ph') j w r).
    { intros ph' Hx j w r Hw Hr. destruct (Hs j w r Hw Hr) as (A & B & _). cbn [stage]. split; [exact A|]. split; [exact B|]. intros ->.
      rewrite Hv in Hw. injection Hw as <-. rewrite Hr0 in Hr. injection Hr as <-. exact Hx. }
    assert (Hnext : dead v /\ r0 = REnd -> forall j w r, nth_error (q_socks s) j = Some w -> nth_error (q_recv s) j = Some r -> stage (TStop (S k) PCheck) j w r).
    { intros Hx j w r Hw Hr. destruct (Hs j w r Hw Hr) as (A & B & _). cbn [stage]. destruct (Nat.eq_dec j k) as [->|Hne].
      - rewrite Hv in Hw. injection Hw as <-. rewrite Hr0 in Hr. injection Hr as <-. split; [intros _; exact Hx|]. split; [lia|lia].
      - split; [intros; apply A; lia|]. split; [intros; apply B; lia|]. intros ->. apply B; lia. }
    destruct ph.
    + destruct (k_ref v) eqn:Er.
      * intros [= <- <-]. assert (Hlv : live v) by (destruct Hst as [L|((D & _) & _)]; [exact L|congruence]).
        split; [reflexivity|]. split; [reflexivity|]. split; [reflexivity|]. split; [reflexivity|]. split; [repeat split; auto; lia|].
        split; [apply (Hself PShut), Hlv|]. left. cbn [um]. lia.
      * intros [= <- <-]. assert (Hd : dead v /\ r0 = REnd) by (destruct Hst as [(L & _)|D]; [congruence|exact D]).
        split; [reflexivity|]. split; [reflexivity|]. split; [reflexivity|]. split; [reflexivity|]. split; [repeat split; auto; try lia; intros H; now destruct H|].
        split; [apply Hnext, Hd|]. left. cbn [um]. lia.
    + destruct Hst as (L1 & L2 & L3). rewrite L1, L3. cbn [andb negb]. intros [= <- <-].
      split; [reflexivity|]. split; [reflexivity|]. split; [apply length_put|]. split; [reflexivity|]. split; [repeat split; auto; lia|].
      split; [apply (Hput _ PClose); reflexivity|]. left. cbn [um]. lia.
    + rewrite Hst. intros [= <- <-].
      split; [reflexivity|]. split; [reflexivity|]. split; [apply length_put|]. split; [reflexivity|]. split; [repeat split; auto; lia|].
      split; [apply (Hput _ PNone); reflexivity|]. left. cbn [um]. lia.
    + intros [= <- <-].
      split; [reflexivity|]. split; [reflexivity|]. split; [apply length_put|]. split; [reflexivity|]. split; [repeat split; auto; lia|].
      split; [apply (Hput _ PJoin); split; [reflexivity|exact Hst]|]. left. cbn [um]. pose proof (rr_max n (nth k (q_recv s) REnd)). lia.
    + rewrite Hr0. destruct (match r0 with REnd => true | _ => false end) eqn:Ee.
      * destruct r0; try discriminate. intros [= <- <-].
        split; [reflexivity|]. split; [reflexivity|]. split; [reflexivity|]. split; [reflexivity|]. split; [repeat split; auto; try lia; intros H; now destruct H|].
        split; [apply Hnext; split; [exact Hst|reflexivity]|]. left. cbn [um]. lia.
      * assert (E : (s, TStop k PJoin) = (s1, U1) -> s1 = s /\ U1 = TStop k PJoin) by (now intros [= <- <-]).
        intros H. assert (H' : s1 = s /\ U1 = TStop k PJoin) by (apply E; destruct r0; try exact H; discriminate). destruct H' as (-> & ->).
        split; [reflexivity|]. split; [reflexivity|]. split; [reflexivity|]. split; [reflexivity|]. split; [repeat split; auto|].
        split; [apply (Hself PJoin), Hst|]. right. split; [reflexivity|]. split; [reflexivity|]. cbn [need]. rewrite Hr0. destruct r0; try discriminate.
  - intros [= <- <-]. repeat split; try apply Hu; try apply (Hs _ _ _ H H0). right. repeat split. discriminate.
Qed.

Lemma inv_step cb s e : polite cb -> INV s -> INV (qstep cb s e) /\
  (MU (qstep cb s e) < MU s \/ MU (qstep cb s e) = MU s /\ ND (qstep cb s e) = ND s /\ (ND s = None \/ ~ matches e (ND s))).
Proof.
  intros Hp (U & us & Hu & Hus & Hl & Hrok & Hst & Hs).
  assert (HI : INV s) by (exists U, us; repeat split; assumption).
  assert (Hid : forall s1, s1 = s -> (ND s = None \/ ~ matches e (ND s)) -> INV s1 /\ (MU s1 < MU s \/ MU s1 = MU s /\ ND s1 = ND s /\ (ND s = None \/ ~ matches e (ND s)))).
  { intros s1 -> H. split; [exact HI|]. right. auto. }
  assert (Hh : head_pc s = U) by (unfold head_pc; now rewrite Hu).
  destruct e as [u|i d]; unfold qstep.
  - rewrite Hu. destruct u as [|u].
    + cbn [nth_error]. destruct (tstep None s U) as [s1 U1] eqn:E.
      destruct (stop_step s U Hl Hst Hs s1 U1 E) as (A & B & C & _ & F & G & K).
      rewrite B, Hu. cbn [put]. split.
      { exists U1, us. cbn [set_users q_users q_recv q_socks q_cleared]. rewrite A, C. repeat split; assumption. }
      unfold MU, ND, head_pc. cbn [set_users q_users q_recv q_socks q_cleared hd]. rewrite A, C, Hu. cbn [hd].
      destruct K as [K|(-> & -> & K)]; [left; exact K|]. right. split; [reflexivity|]. split; [reflexivity|].
      destruct (need (q_recv s) U) as [[k|]|] eqn:N; [right; intros (d & Hd); discriminate|now destruct (K eq_refl)|left; reflexivity].
    + cbn [nth_error]. destruct (nth_error us u) as [t|] eqn:Ht.
      2:{ apply Hid; [reflexivity|]. destruct (ND s) as [[k|]|]; [right; intros (d & Hd); discriminate|right; discriminate|left; reflexivity]. }
      destruct (tstep None s t) as [s1 t1] eqn:E.
      assert (Hts : issend t) by (rewrite Forall_forall in Hus; apply Hus; eapply nth_error_In; eassumption).
      destruct (send_step _ _ _ Hts _ _ E) as (A & (B1 & B2 & B3 & B4) & _).
      rewrite B4, Hu. cbn [put]. split.
      { exists U, (put us u t1). cbn [set_users q_users q_recv q_socks q_cleared]. rewrite B1, B2, B3. repeat split; try assumption. now apply Forall_put. }
      right. unfold MU, ND, head_pc. cbn [set_users q_users q_recv q_socks q_cleared hd]. rewrite B1, B3, Hu. cbn [hd]. split; [reflexivity|]. split; [reflexivity|].
      destruct (need (q_recv s) U) as [[k|]|]; [right; intros (d & Hd); discriminate|right; discriminate|left; reflexivity].
  - destruct (nth_error (q_recv s) i) as [r|] eqn:Hr.
    2:{ apply Hid; [reflexivity|]. unfold ND. rewrite Hh. destruct (need (q_recv s) U) as [[k|]|] eqn:N; [right; intros (d' & [= -> ->])|right; discriminate|left; reflexivity].
        apply nth_error_None in Hr. destruct U as [|k' ph|ann|ann k' c|q]; cbn in N; try discriminate. destruct ph; try discriminate.
        destruct Hst as (_ & _ & Hk). assert (k' < length (q_socks s)) by (apply Hk; discriminate).
        assert (k' = k) by (destruct (nth_error (q_recv s) k') as [[]|]; congruence). lia. }
    destruct (rstep cb s i d r) as [s1 r1] eqn:E.
    destruct (recv_step cb s i d r Hp (Hrok _ _ Hr) s1 r1 E) as (A & (B1 & B2 & B3 & B4) & K).
    assert (Hin : i < length (q_socks s)) by (rewrite <- Hl; apply nth_error_Some; rewrite Hr; discriminate).
    rewrite B3. split.
    { exists U, us. cbn [set_recv q_users q_recv q_socks q_cleared]. rewrite B1, B2, B4, length_put. repeat split; try assumption.
      - intros j q. rewrite nth_put. destruct (Nat.eqb j i); [|apply Hrok]. rewrite Hr. intros [= <-]. exact A.
      - intros j v q Hv Hq. rewrite nth_put in Hq. destruct (Nat.eqb j i) eqn:Eji; [|now apply Hs].
        apply Nat.eqb_eq in Eji. subst j. rewrite Hr in Hq. injection Hq as <-. pose proof (Hs i v r Hv Hr) as Hsi.
        assert (HD : forall P : Prop, P /\ r = REnd -> P /\ r1 = REnd) by (intros P (p & q); auto).
        destruct U as [|k ph|ann|ann k c|q]; cbn [stage] in *; try (now apply HD).
        + destruct Hsi as [L|D]; [left; exact L|right; now apply HD].
        + destruct Hsi as (S1 & S2 & S3). split; [intros; now apply HD, S1|]. split.
          * intros Hj. destruct (S2 Hj) as [L|D]; [left; exact L|right; now apply HD].
          * intros Hj. specialize (S3 Hj). destruct ph; try exact S3. destruct S3 as [L|D]; [left; exact L|right; now apply HD]. }
    unfold MU, ND, head_pc. cbn [set_recv q_users q_recv q_socks q_cleared]. rewrite B1, B4, Hu. cbn [hd].
    destruct (nth_error (q_socks s) i) as [v|] eqn:Hv; [|apply nth_error_None in Hv; lia].
    assert (Hnth : nth i (q_recv s) REnd = r) by (now apply nth_error_nth).
    assert (Hsame : (forall k, U = TStop k PJoin -> i <> k) -> um (length (q_socks s)) (put (q_recv s) i r1) U = um (length (q_socks s)) (q_recv s) U /\ need (put (q_recv s) i r1) U = need (q_recv s) U /\
      (need (q_recv s) U = None \/ ~ matches (Recv i d) (need (q_recv s) U))).
    { intros Hj. destruct U as [|k ph|ann|ann k c|q]; cbn [um need]; try (split; [reflexivity|]; split; [reflexivity|]; ((left; reflexivity) || (right; discriminate))).
      destruct ph; try (split; [reflexivity|]; split; [reflexivity|]; right; discriminate).
      specialize (Hj k eq_refl). assert (Hnk : nth_error (put (q_recv s) i r1) k = nth_error (q_recv s) k).
      { rewrite nth_put. now rewrite (proj2 (Nat.eqb_neq k i)) by congruence. }
      rewrite Hnk. split.
      - f_equal. f_equal. rewrite !nth_default_eq || idtac. rewrite <- !nth_default_eq. unfold nth_default. now rewrite Hnk.
      - split; [reflexivity|]. right. destruct (nth_error (q_recv s) k) as [[]|]; cbn [matches]; try discriminate; intros (d' & [= ? ?]); contradiction. }
    destruct U as [|k ph|ann|ann k c|q]; try (right; apply Hsame; intros; discriminate).
    destruct ph; try (right; apply Hsame; intros; discriminate).
    destruct (Nat.eq_dec i k) as [->|Hne]; [|right; apply Hsame; intros k' [= <-]; exact Hne].
    assert (Hd : dead v) by (apply (Hs k v r Hv Hr); reflexivity).
    destruct (match r with REnd => true | _ => false end) eqn:Ee.
    + destruct r; try discriminate. rewrite (K eq_refl). right.
      assert (Hp2 : put (q_recv s) k REnd = q_recv s).
      { apply nth_ext with (d := REnd) (d' := REnd); [apply length_put|]. intros m _. rewrite <- !nth_default_eq. unfold nth_default. rewrite nth_put.
        destruct (Nat.eqb m k) eqn:Em; [|reflexivity]. apply Nat.eqb_eq in Em. subst m. now rewrite Hr. }
      rewrite Hp2. split; [reflexivity|]. split; [reflexivity|]. right. cbn [need]. rewrite Hr. cbn [matches]. discriminate.
    + left. cbn [um]. assert (Hne : r <> REnd) by (intros ->; discriminate).
      pose proof (rr_down cb s k d r v Hp (Hrok _ _ Hr) Hv Hd Hne s1 r1 E) as Hlt. rewrite Hnth.
      assert (nth k (put (q_recv s) k r1) REnd = r1) as ->; [|lia].
      apply nth_error_nth. rewrite nth_put, Nat.eqb_refl, Hr. reflexivity.
Qed.
Lemma inv_run cb l : polite cb -> forall s, INV s -> INV (qrun cb s l) /\ MU (qrun cb s l) <= MU s.
Proof.
  intros Hp. induction l as [|e l IH]; intros s HI; [split; [exact HI|apply le_n]|]. cbn [qrun fold_left].
  destruct (inv_step cb s e Hp HI) as (HI1 & K). destruct (IH _ HI1) as (A & B). split; [exact A|]. unfold qrun in B. lia.
Qed.
Lemma round_down cb l : polite cb -> forall s, INV s -> ND s <> None -> (exists e, In e l /\ matches e (ND s)) -> MU (qrun cb s l) < MU s.
Proof.
  intros Hp. induction l as [|e l IH]; intros s HI Hn (e0 & Hin & Hm); [destruct Hin|]. cbn [qrun fold_left].
  destruct (inv_step cb s e Hp HI) as (HI1 & [K|(K1 & K2 & K3)]).
  - pose proof (proj2 (inv_run cb l Hp _ HI1)) as L. unfold qrun in L. lia.
  - rewrite <- K1. apply (IH _ HI1); rewrite K2; [exact Hn|]. exists e0. split; [|exact Hm].
    destruct Hin as [->|Hin]; [|exact Hin]. destruct K3 as [K3|K3]; [congruence|now destruct (K3 Hm)].
Qed.
Lemma inv_done s : INV s -> forall r, user_done s 0 r -> r = SVal true /\ q_cleared s = true /\ all_ended s.
Proof.
  intros (U & us & Hu & _ & Hl & _ & Hst & Hs) r Hr. unfold user_done in Hr. rewrite Hu in Hr. injection Hr as ->.
  split; [apply Hst|]. split; [apply Hst|]. split; apply Forall_forall; intros x Hx; apply In_nth_error in Hx as (j & Hj).
  - destruct (nth_error (q_socks s) j) as [v|] eqn:Hv; [symmetry; apply (Hs _ _ _ Hv Hj)|].
    apply nth_error_None in Hv. assert (j < length (q_recv s)) by (apply nth_error_Some; congruence). lia.
  - destruct (nth_error (q_recv s) j) as [v|] eqn:Hv; [apply (Hs _ _ _ Hj Hv)|].
    apply nth_error_None in Hv. assert (j < length (q_socks s)) by (apply nth_error_Some; congruence). lia.
Qed.
Lemma nd_none s : INV s -> ND s = None -> user_done s 0 (SVal true).
Proof.
  intros (U & us & Hu & _ & _ & _ & Hst & _). unfold ND, head_pc, user_done. rewrite Hu. cbn [hd nth_error].
  destruct U as [|k ph|ann|ann k c|q]; cbn [need]; try discriminate.
  - destruct ph; try discriminate. destruct (nth_error (q_recv s) k) as [[]|]; discriminate.
  - intros _. destruct Hst as (-> & _). reflexivity.
Qed.
Lemma users_length cb s e : length (q_users (qstep cb s e)) = length (q_users s).
Proof.
  assert (T : forall self s t, length (q_users (fst (tstep self s t))) = length (q_users s)).
  { clear. intros self s t. destruct t as [|k ph|ann|ann k c|q]; cbn [tstep].
    - now destruct (q_cleared s).
    - destruct (nth_error (q_socks s) k) as [v|]; [|reflexivity].
      destruct ph; try (destruct (k_ref v); reflexivity); try reflexivity.
      + cbn [fst]. now destruct (k_ref v && _).
      + destruct self as [i|]; [destruct (Nat.eqb i k); [reflexivity|]|]; destruct (nth_error (q_recv s) k) as [[]|]; reflexivity.
    - now destruct (q_cleared s).
    - destruct (nth_error (q_socks s) k) as [v|]; [|reflexivity]. destruct (negb (k_uni v)); [reflexivity|]. destruct (negb c); [reflexivity|].
      destruct (negb (k_ref v)); [reflexivity|]. destruct (k_shut v || k_closed v); reflexivity.
    - reflexivity. }
  destruct e as [u|i d]; cbn [qstep].
  - destruct (nth_error (q_users s) u) as [t|]; [|reflexivity]. pose proof (T None s t) as H. destruct (tstep None s t) as [s1 t1]. cbn [set_users q_users fst] in *. now rewrite length_put.
  - destruct (nth_error (q_recv s) i) as [r|]; [|reflexivity]. assert (H : length (q_users (fst (rstep cb s i d r))) = length (q_users s)).
    { unfold rstep. destruct (nth_error (q_socks s) i) as [v|]; [|reflexivity]. destruct r as [| | |x|t|]; try reflexivity.
      - now destruct d.
      - destruct t as [|k ph|ann|ann k c|q]; [..|now destruct q];
        match goal with |- context [tstep ?a ?b ?c] => pose proof (T a b c) as H; destruct (tstep a b c) as [s1 t1] end; exact H. }
    destruct (rstep cb s i d r) as [s1 r1]. exact H.
Qed.

(** What a step of any thread does to sockets, callbacks and datagrams sent. *)
Definition fades (a b : list sk) : Prop := length b = length a /\
  forall k v, nth_error a k = Some v -> k_ref v = false -> exists w, nth_error b k = Some w /\ k_ref w = false /\ (k_closed v = true -> k_closed w = true).
Lemma fades_refl a : fades a a.
Proof. split; [reflexivity|]. eauto. Qed.
Lemma fades_trans a b c : fades a b -> fades b c -> fades a c.
Proof.
  intros (A1 & A2) (B1 & B2). split; [congruence|]. intros k v H1 H2. destruct (A2 _ _ H1 H2) as (w & W1 & W2 & W3).
  destruct (B2 _ _ W1 W2) as (x & X1 & X2 & X3). exists x. auto.
Qed.
Lemma fades_put s k v v' : nth_error s k = Some v -> (k_ref v = false -> k_ref v' = false /\ k_closed v' = k_closed v) -> fades s (put s k v').
Proof.
  intros Hv H. split; [apply length_put|]. intros j w Hw Hr. rewrite nth_put. destruct (Nat.eqb j k) eqn:E; [|eauto].
  apply Nat.eqb_eq in E. subst j. rewrite Hv in *. injection Hw as <-. destruct (H Hr) as (A & B). exists v'. repeat split; auto. congruence.
Qed.
Definition sends (a : list sk) (l l' : list nat) : Prop :=
  l' = l \/ exists k v, l' = l ++ [k] /\ nth_error a k = Some v /\ k_uni v = true /\ live v.
Lemma t_step self s t : forall s1 t1, tstep self s t = (s1, t1) ->
  q_recv s1 = q_recv s /\ q_calls s1 = q_calls s /\ q_users s1 = q_users s /\ fades (q_socks s) (q_socks s1) /\ sends (q_socks s) (q_sent s) (q_sent s1).
Proof.
  assert (Hid : forall (t1 : tpc) s1 t2, (s, t1) = (s1, t2) -> q_recv s1 = q_recv s /\ q_calls s1 = q_calls s /\ q_users s1 = q_users s /\ fades (q_socks s) (q_socks s1) /\ sends (q_socks s) (q_sent s) (q_sent s1)).
  { intros t1 s1 t2 [= <- <-]. repeat split; eauto. now left. }
  intros s1 t1. destruct t as [|k ph|ann|ann k c|q]; cbn [tstep].
  - destruct (q_cleared s); apply Hid.
  - destruct (nth_error (q_socks s) k) as [v|] eqn:Hv; [|intros [= <- <-]; repeat split; eauto; now left].
    destruct ph.
    + destruct (k_ref v); apply Hid.
    + destruct (k_ref v && negb (k_closed v)) eqn:E; [|apply Hid]. intros [= <- <-]. split; [reflexivity|]. split; [reflexivity|]. split; [reflexivity|].
      split; [|left; reflexivity]. apply andb_prop in E as (E & _). apply (fades_put _ _ _ _ Hv). congruence.
    + destruct (k_ref v) eqn:E; [|apply Hid]. intros [= <- <-]. split; [reflexivity|]. split; [reflexivity|]. split; [reflexivity|].
      split; [|left; reflexivity]. apply (fades_put _ _ _ _ Hv). congruence.
    + intros [= <- <-]. split; [reflexivity|]. split; [reflexivity|]. split; [reflexivity|].
      split; [|left; reflexivity]. apply (fades_put _ _ _ _ Hv). intros _. split; reflexivity.
    + destruct self as [i|]; [destruct (Nat.eqb i k); [apply Hid|]|]; destruct (nth_error (q_recv s) k) as [[]|]; apply Hid.
  - destruct (q_cleared s); apply Hid.
  - destruct (nth_error (q_socks s) k) as [v|] eqn:Hv; [|apply Hid].
    destruct (k_uni v) eqn:Eu; cbn [negb]; [|apply Hid]. destruct (negb c); [apply Hid|].
    destruct (k_ref v) eqn:Er; cbn [negb]; [|apply Hid]. destruct (k_shut v || k_closed v) eqn:E; [apply Hid|].
    intros [= <- <-]. apply Bool.orb_false_elim in E as (E1 & E2). split; [reflexivity|]. split; [reflexivity|]. split; [reflexivity|].
    split; [apply fades_refl|]. right. exists k, v. repeat split; assumption.
  - apply Hid.
Qed.
Definition late (r : rpc) : nat := match r with RWait | RCall _ => 1 | _ => 0 end.
Lemma r_step cb s i d r : forall s1 r1, rstep cb s i d r = (s1, r1) ->
  q_recv s1 = q_recv s /\ q_users s1 = q_users s /\ fades (q_socks s) (q_socks s1) /\ sends (q_socks s) (q_sent s) (q_sent s1) /\
  (r = REnd -> r1 = REnd /\ q_calls s1 = q_calls s /\ q_sent s1 = q_sent s) /\
  (q_calls s1 = q_calls s \/ exists d', r = RCall d' /\ q_calls s1 = q_calls s ++ [(i, d')] /\ late r1 = 0) /\
  (forall v, nth_error (q_socks s) i = Some v -> k_ref v = false -> late r1 <= late r).
Proof.
  assert (Hid : forall s1 (r1 : rpc) r2, (s, r1) = (s1, r2) -> (r = REnd -> r1 = REnd) ->
    (forall v, nth_error (q_socks s) i = Some v -> k_ref v = false -> late r1 <= late r) ->
    q_recv s1 = q_recv s /\ q_users s1 = q_users s /\ fades (q_socks s) (q_socks s1) /\ sends (q_socks s) (q_sent s) (q_sent s1) /\
    (r = REnd -> r2 = REnd /\ q_calls s1 = q_calls s /\ q_sent s1 = q_sent s) /\
    (q_calls s1 = q_calls s \/ exists d', r = RCall d' /\ q_calls s1 = q_calls s ++ [(i, d')] /\ late r2 = 0) /\
    (forall v, nth_error (q_socks s) i = Some v -> k_ref v = false -> late r2 <= late r)).
  { intros s1 r1 r2 [= <- <-] H1 H2. repeat split; eauto. now left. }
  intros s1 r1. unfold rstep. destruct (nth_error (q_socks s) i) as [v|] eqn:Hv; [|intros H; apply (Hid _ _ _ H); auto].
  destruct r as [| | |x|t|].
  - intros H; apply (Hid _ _ _ H); [discriminate|]. intros w [= <-] ->. apply le_n.
  - intros H; apply (Hid _ _ _ H); [discriminate|]. intros w [= <-] ->. apply le_n.
  - destruct d; intros H; apply (Hid _ _ _ H); try discriminate; intros w [= <-] _; cbn [late]; try apply le_n. destruct (k_shut v || k_closed v); cbn; lia.
  - intros [= <- <-]. split; [reflexivity|]. split; [reflexivity|]. split; [apply fades_refl|]. split; [left; reflexivity|]. split; [discriminate|].
    split; [|intros; destruct (cb i x); cbn; lia]. right. exists x. split; [reflexivity|]. split; [reflexivity|]. now destruct (cb i x).
  - destruct t as [|k ph|ann|ann k c|q].
    all: try (match goal with |- context [tstep ?a ?b ?c] => pose proof (t_step a b c) as T; destruct (tstep a b c) as [s2 t2]; intros [= <- <-];
        destruct (T _ _ eq_refl) as (T1 & T2 & T3 & T4 & T5); split; [exact T1|]; split; [exact T3|]; split; [exact T4|]; split; [exact T5|]; split; [discriminate|]; split; [left; exact T2|intros; apply le_n] end).
    destruct q; intros H; apply (Hid _ _ _ H); try discriminate; intros; apply le_n.
  - intros H; apply (Hid _ _ _ H); auto.
Qed.
Lemma q_step_facts cb s e : let s1 := qstep cb s e in
  length (q_recv s1) = length (q_recv s) /\ fades (q_socks s) (q_socks s1) /\ sends (q_socks s) (q_sent s) (q_sent s1) /\
  (forall i, nth_error (q_recv s) i = Some REnd -> nth_error (q_recv s1) i = Some REnd) /\
  (Forall (eq REnd) (q_recv s) -> q_calls s1 = q_calls s) /\
  (forall i v r, nth_error (q_socks s) i = Some v -> k_ref v = false -> nth_error (q_recv s) i = Some r -> exists r1, nth_error (q_recv s1) i = Some r1 /\
    length (calls_of i (q_calls s1)) + late r1 <= length (calls_of i (q_calls s)) + late r).
Proof.
  intros s1. subst s1. destruct e as [u|i d]; cbn [qstep].
  - destruct (nth_error (q_users s) u) as [t|]; [|repeat split; eauto; now left].
    destruct (tstep None s t) as [s1 t1] eqn:E. destruct (t_step _ _ _ _ _ E) as (T1 & T2 & T3 & T4 & T5).
    cbn [set_users q_recv q_socks q_sent q_calls]. rewrite T1, T2. split; [reflexivity|]. split; [exact T4|]. split; [exact T5|]. split; [auto|]. split; [auto|]. eauto.
  - destruct (nth_error (q_recv s) i) as [r|] eqn:Hr; [|repeat split; eauto; now left].
    destruct (rstep cb s i d r) as [s1 r1] eqn:E. destruct (r_step _ _ _ _ _ _ _ E) as (T1 & T2 & T3 & T4 & T5 & T6 & T7).
    cbn [set_recv q_recv q_socks q_sent q_calls]. rewrite T1, length_put. split; [reflexivity|]. split; [exact T3|]. split; [exact T4|]. split; [|split].
    + intros j Hj. rewrite nth_put. destruct (Nat.eqb j i) eqn:Ej; [|exact Hj]. apply Nat.eqb_eq in Ej. subst j. rewrite Hr in *. injection Hj as ->. now rewrite (proj1 (T5 eq_refl)).
    + intros H. rewrite Forall_forall in H. symmetry in Hr || idtac. assert (r = REnd) by (symmetry; apply H; eapply nth_error_In; eauto). now apply T5.
    + intros j v q Hv Hf Hq. rewrite nth_put. destruct (Nat.eqb j i) eqn:Ej.
      * apply Nat.eqb_eq in Ej. subst j. rewrite Hr in *. injection Hq as <-. exists r1. split; [reflexivity|]. specialize (T7 v Hv Hf).
        destruct T6 as [->|(d' & -> & -> & L)]; [lia|]. unfold calls_of. rewrite filter_app, app_length. cbn [filter fst]. rewrite Nat.eqb_refl. cbn [length late]. lia.
      * exists q. split; [exact Hq|]. assert (calls_of j (q_calls s1) = calls_of j (q_calls s)) as ->; [|lia].
        destruct T6 as [->|(d' & _ & -> & _)]; [reflexivity|]. unfold calls_of. rewrite filter_app. cbn [filter fst]. rewrite Nat.eqb_sym, Ej. apply app_nil_r.
Qed.

Lemma fades_dead a b : fades a b -> Forall dead a -> Forall dead b.
Proof.
  intros (H1 & H2) Ha. apply Forall_forall. intros w Hw. apply In_nth_error in Hw as (k & Hk).
  destruct (nth_error a k) as [v|] eqn:Hv; [|apply nth_error_None in Hv; assert (k < length b) by (apply nth_error_Some; congruence); lia].
  rewrite Forall_forall in Ha. destruct (Ha v (nth_error_In _ _ Hv)) as (D1 & D2). destruct (H2 _ _ Hv D1) as (w' & W1 & W2 & W3).
  rewrite Hk in W1. injection W1 as <-. split; auto.
Qed.
Lemma ended_step cb s e : all_ended s -> all_ended (qstep cb s e) /\ q_calls (qstep cb s e) = q_calls s /\ q_sent (qstep cb s e) = q_sent s.
Proof.
  intros (E1 & E2). destruct (q_step_facts cb s e) as (F1 & F2 & F3 & F4 & F5 & _). split; [|split].
  - split; [|now apply (fades_dead _ _ F2)]. apply Forall_forall. intros r Hr. apply In_nth_error in Hr as (i & Hi).
    destruct (nth_error (q_recv s) i) as [q|] eqn:Hq; [|apply nth_error_None in Hq; assert (i < length (q_recv (qstep cb s e))) by (apply nth_error_Some; congruence); lia].
    rewrite Forall_forall in E1. assert (q = REnd) by (symmetry; apply E1; eapply nth_error_In; eauto). subst q. specialize (F4 _ Hq). congruence.
  - now apply F5.
  - destruct F3 as [->|(k & v & _ & Hv & _ & (L & _))]; [reflexivity|]. rewrite Forall_forall in E2. destruct (E2 v (nth_error_In _ _ Hv)) as (D & _). congruence.
Qed.
Lemma ended_run cb l : forall s, all_ended s -> all_ended (qrun cb s l) /\ q_calls (qrun cb s l) = q_calls s /\ q_sent (qrun cb s l) = q_sent s.
Proof.
  induction l as [|e l IH]; intros s H; [auto|]. cbn [qrun fold_left]. destruct (ended_step cb s e H) as (A & B & C).
  destruct (IH _ A) as (X & Y & Z). unfold qrun in *. split; [exact X|]. split; congruence.
Qed.

Lemma L_C86_stopped_partial : forall cb s l r, polite cb -> started s -> one_stop s ->
  user_done (qrun cb s l) 0 r ->
  r = SVal true /\ q_cleared (qrun cb s l) = true /\
  forall l', all_ended (qrun cb s (l ++ l')) /\ q_calls (qrun cb s (l ++ l')) = q_calls (qrun cb s l).
Proof.
  intros cb s l r Hp Hs Ho Hr. destruct (inv_run cb l Hp s (started_inv s Hs Ho)) as (HI & _).
  destruct (inv_done _ HI r Hr) as (A & B & C). split; [exact A|]. split; [exact B|]. intros l'. rewrite qrun_app.
  destruct (ended_run cb l' _ C) as (X & Y & _). auto.
Qed.
Lemma L_C87_silent_partial : forall cb s l r, polite cb -> started s -> one_stop s ->
  user_done (qrun cb s l) 0 r -> forall l', q_sent (qrun cb s (l ++ l')) = q_sent (qrun cb s l).
Proof.
  intros cb s l r Hp Hs Ho Hr l'. destruct (inv_run cb l Hp s (started_inv s Hs Ho)) as (HI & _).
  destruct (inv_done _ HI r Hr) as (_ & _ & C). rewrite qrun_app. apply (ended_run cb l' _ C).
Qed.

Lemma lens cb l : forall s, length (q_users (qrun cb s l)) = length (q_users s) /\ length (q_socks (qrun cb s l)) = length (q_socks s) /\ length (q_recv (qrun cb s l)) = length (q_recv s).
Proof.
  induction l as [|e l IH]; intros s; [auto|]. cbn [qrun fold_left]. destruct (IH (qstep cb s e)) as (A & B & C). unfold qrun in *.
  destruct (q_step_facts cb s e) as (F1 & (F2 & _) & _). rewrite A, B, C, users_length. auto.
Qed.
Lemma rounds_down cb n m : polite cb -> forall ls s, INV s -> length (q_socks s) = n -> length (q_users s) = m ->
  Forall (round n m) ls -> ND (qrun cb s (concat ls)) = None \/ MU (qrun cb s (concat ls)) + length ls <= MU s.
Proof.
  intros Hp. induction ls as [|l ls IH]; intros s HI Hn Hm Hls; [right; cbn; lia|].
  inversion Hls as [|? ? (Hr1 & Hr2) Hls']; subst. cbn [concat length]. rewrite qrun_app.
  destruct (inv_run cb l Hp s HI) as (HI1 & Hle). destruct (lens cb l s) as (A & B & _).
  destruct (IH (qrun cb s l) HI1 B A Hls') as [K|K]; [left; exact K|].
  destruct (ND s) as [nd|] eqn:N.
  - right. assert (MU (qrun cb s l) < MU s); [|lia]. apply (round_down cb l Hp s HI); [congruence|]. rewrite N.
    destruct HI as (U & us & Hu & _ & Hl & _ & Hst & _). unfold ND, head_pc in N. rewrite Hu in N. cbn [hd] in N.
    destruct nd as [k|].
    + destruct (Hr2 k) as (d & Hd); [|exists (Recv k d); split; [exact Hd|exists d; reflexivity]].
      destruct U as [|k' ph|ann|ann k' c|q]; cbn in N; try discriminate. destruct ph; try discriminate.
      destruct Hst as (_ & _ & Hk). assert (k' < length (q_socks s)) by (apply Hk; discriminate).
      assert (k' = k) by (destruct (nth_error (q_recv s) k') as [[]|]; congruence). lia.
    + exists (User 0). split; [|reflexivity]. apply Hr1. rewrite Hu. cbn; lia.
  - left. clear K. assert (Hd := nd_none s HI N). 
    assert (KK : forall l2 s2, INV s2 -> ND s2 = None -> ND (qrun cb s2 l2) = None).
    { clear -Hp. induction l2 as [|e l2 IH]; intros s2 HI2 N2; [exact N2|]. cbn [qrun fold_left]. destruct (inv_step cb s2 e Hp HI2) as (A & K). apply (IH _ A).
      destruct K as [K|(_ & K & _)]; [|congruence]. exfalso. pose proof (nd_none s2 HI2 N2) as D. unfold user_done in D. unfold MU in K at 2. unfold head_pc in K.
      destruct (q_users s2) as [|U us]; [discriminate|]. injection D as ->. cbn in K. lia. }
    apply KK; [exact HI1|]. now apply KK.
Qed.
Lemma L_C86_ends_partial : forall cb s ls, polite cb -> started s -> one_stop s ->
  let n := length (q_socks s) in
  Forall (round n (length (q_users s))) ls -> n * (2 * n + 13) + 2 <= length ls ->
  user_done (qrun cb s (concat ls)) 0 (SVal true).
Proof.
  intros cb s ls Hp Hs Ho n Hls Hlen. pose proof (started_inv s Hs Ho) as HI.
  destruct (inv_run cb (concat ls) Hp s HI) as (HI1 & _). apply (nd_none _ HI1).
  destruct (rounds_down cb n _ Hp ls s HI eq_refl eq_refl Hls) as [K|K]; [exact K|].
  assert (MU s = n * (2 * n + 13) + 2) by (destruct Ho as (us & Hu & _); unfold MU, head_pc; rewrite Hu; reflexivity).
  assert (Z0 : MU (qrun cb s (concat ls)) = 0) by lia. destruct HI1 as (U & us & Hu & _ & _ & _ & Hst & _).
  unfold MU, ND, head_pc in *. rewrite Hu in *. cbn [hd] in *. clear -Z0 Hst.
  assert (P : forall x y : nat, 0 < y -> x + y = 0 -> False) by (intros; lia).
  destruct U as [|k ph|ann|ann k c|q].
  - exfalso. apply (P _ _ (Nat.lt_0_succ 1) Z0).
  - exfalso. destruct ph; cbn [um] in Z0.
    + apply (P _ _ (Nat.lt_0_succ 0) Z0).
    + apply (P _ _ (Nat.lt_0_succ 12) Z0).
    + apply (P _ _ (Nat.lt_0_succ 11) Z0).
    + apply (P _ _ (Nat.lt_0_succ 10) Z0).
    + rewrite <- Nat.add_assoc in Z0. refine (P _ _ _ Z0). lia.
  - destruct Hst.
  - destruct Hst.
  - reflexivity.
Qed.
Lemma L_C86_last : forall cb s i v r, nth_error (q_socks s) i = Some v -> k_ref v = false -> nth_error (q_recv s) i = Some r ->
  forall l, length (calls_of i (q_calls (qrun cb s l))) <= length (calls_of i (q_calls s)) + 1.
Proof.
  intros cb s i v r Hv Hf Hr l.
  assert (G : forall l s v r, nth_error (q_socks s) i = Some v -> k_ref v = false -> nth_error (q_recv s) i = Some r ->
    length (calls_of i (q_calls (qrun cb s l))) <= length (calls_of i (q_calls s)) + late r).
  { clear. induction l as [|e l IH]; intros s v r Hv Hf Hr; [cbn; lia|]. cbn [qrun fold_left].
    destruct (q_step_facts cb s e) as (_ & (_ & F2) & _ & _ & _ & F6). destruct (F2 _ _ Hv Hf) as (w & W1 & W2 & _).
    destruct (F6 _ _ _ Hv Hf Hr) as (r1 & R1 & R2). specialize (IH _ _ _ W1 W2 R1). unfold qrun in IH. lia. }
  specialize (G l s v r Hv Hf Hr). assert (late r <= 1) by (destruct r; cbn; lia). lia.
Qed.

(** A callback that stops the node. *)
Lemma L_C86_callback_refuted : forall cb d v rest rs us cs sent, live v -> cb 0 d = DStop -> exists l,
  let s := mkqst (v :: rest) false (RWait :: rs) us cs sent in
  let s' := qrun cb s l in
  q_calls s' = cs ++ [(0, d)] /\ nth_error (q_recv s') 0 = Some REnd /\ q_cleared s' = false /\
  forall i, nth_error (q_socks s') (S i) = nth_error rest i /\ nth_error (q_recv s') (S i) = nth_error rs i.
Proof.
  intros cb d [u r sh c] rest rs us cs sent (L1 & L2 & L3) Hcb. cbn in L1, L2, L3. subst r sh c.
  exists (Recv 0 (Some d) :: repeat (Recv 0 None) 8).
  unfold qrun, repeat. cbn [fold_left]. cbn. rewrite Hcb. cbn. repeat split.
Qed.
Lemma L_C86_deadlock_refuted : forall cb d0 d1 v0 v1 rest rs us cs sent, live v0 -> live v1 -> cb 0 d0 = DStop -> cb 1 d1 = DStop ->
  exists l, forall l',
  let s := mkqst (v0 :: v1 :: rest) false (RWait :: RWait :: rs) us cs sent in
  let s' := qrun cb s (l ++ l') in
  nth_error (q_recv s') 0 = Some (RIn (TStop 1 PJoin)) /\ nth_error (q_recv s') 1 = Some (RIn (TStop 0 PJoin)).
Proof.
  intros cb d0 d1 [u0 r0 sh0 c0] [u1 r1 sh1 c1] rest rs us cs sent (L1 & L2 & L3) (M1 & M2 & M3) H0 H1.
  cbn in L1, L2, L3, M1, M2, M3. subst.
  exists (Recv 1 (Some d1) :: repeat (Recv 1 None) 6 ++ Recv 0 (Some d0) :: repeat (Recv 0 None) 7).
  intros l' s. cbv zeta. rewrite qrun_app.
  assert (E : exists so cs', qrun cb s (Recv 1 (Some d1) :: repeat (Recv 1 None) 6 ++ Recv 0 (Some d0) :: repeat (Recv 0 None) 7) =
    mkqst so false (RIn (TStop 1 PJoin) :: RIn (TStop 0 PJoin) :: rs) us cs' sent /\ 2 <= length so).
  { exists (mksk u0 false true true :: mksk u1 false true true :: rest), ((cs ++ [(1, d1)]) ++ [(0, d0)]). split; [|cbn; lia].
    change (Recv 1 (Some d1) :: repeat (Recv 1 None) 6 ++ Recv 0 (Some d0) :: repeat (Recv 0 None) 7)
      with ([Recv 1 (Some d1); Recv 1 None] ++ repeat (Recv 1 None) 5 ++ [Recv 0 (Some d0); Recv 0 None] ++ repeat (Recv 0 None) 6).
    rewrite !qrun_app.
    assert (qrun cb s [Recv 1 (Some d1); Recv 1 None] =
      mkqst (mksk u0 true false false :: mksk u1 true false false :: rest) false (RWait :: RIn TStopBegin :: rs) us (cs ++ [(1, d1)]) sent) as ->
      by (subst s; cbn; rewrite H1; reflexivity).
    assert (qrun cb (mkqst (mksk u0 true false false :: mksk u1 true false false :: rest) false (RWait :: RIn TStopBegin :: rs) us (cs ++ [(1, d1)]) sent) (repeat (Recv 1 None) 5) =
      mkqst (mksk u0 false true true :: mksk u1 true false false :: rest) false (RWait :: RIn (TStop 0 PJoin) :: rs) us (cs ++ [(1, d1)]) sent) as -> by reflexivity.
    assert (qrun cb (mkqst (mksk u0 false true true :: mksk u1 true false false :: rest) false (RWait :: RIn (TStop 0 PJoin) :: rs) us (cs ++ [(1, d1)]) sent) [Recv 0 (Some d0); Recv 0 None] =
      mkqst (mksk u0 false true true :: mksk u1 true false false :: rest) false (RIn TStopBegin :: RIn (TStop 0 PJoin) :: rs) us ((cs ++ [(1, d1)]) ++ [(0, d0)]) sent) as ->
      by (cbn; rewrite H0; reflexivity).
    reflexivity. }
  destruct E as (so & cs' & E & Hso). rewrite E.
  assert (G : forall l' s, 2 <= length (q_socks s) -> nth_error (q_recv s) 0 = Some (RIn (TStop 1 PJoin)) -> nth_error (q_recv s) 1 = Some (RIn (TStop 0 PJoin)) ->
    nth_error (q_recv (qrun cb s l')) 0 = Some (RIn (TStop 1 PJoin)) /\ nth_error (q_recv (qrun cb s l')) 1 = Some (RIn (TStop 0 PJoin))).
  { clear. induction l' as [|e l' IH]; intros s Hl A B; [auto|]. cbn [qrun fold_left].
    assert (K : 2 <= length (q_socks (qstep cb s e)) /\ nth_error (q_recv (qstep cb s e)) 0 = Some (RIn (TStop 1 PJoin)) /\ nth_error (q_recv (qstep cb s e)) 1 = Some (RIn (TStop 0 PJoin))).
    2:{ destruct K as (K1 & K2 & K3). apply (IH _ K1 K2 K3). }
    destruct (q_step_facts cb s e) as (_ & (F & _) & _). rewrite F. split; [exact Hl|].
    destruct e as [u|i d]; cbn [qstep].
    - destruct (nth_error (q_users s) u) as [t|]; [|auto]. destruct (tstep None s t) as [s1 t1] eqn:E. destruct (t_step _ _ _ _ _ E) as (T1 & _). cbn [set_users q_recv]. rewrite T1. auto.
    - destruct i as [|[|i]].
      + rewrite A. unfold rstep. destruct (nth_error (q_socks s) 0) as [w|] eqn:Hw; [|apply nth_error_None in Hw; lia].
        cbn [tstep]. destruct (nth_error (q_socks s) 1) as [w1|] eqn:Hw1; [|apply nth_error_None in Hw1; lia]. cbn [Nat.eqb]. rewrite B. cbn [set_recv q_recv].
        rewrite !nth_put. cbn [Nat.eqb]. rewrite A. auto.
      + rewrite B. unfold rstep. destruct (nth_error (q_socks s) 1) as [w|] eqn:Hw; [|apply nth_error_None in Hw; lia].
        cbn [tstep]. destruct (nth_error (q_socks s) 0) as [w1|] eqn:Hw1; [|apply nth_error_None in Hw1; lia]. cbn [Nat.eqb]. rewrite A. cbn [set_recv q_recv].
        rewrite !nth_put. cbn [Nat.eqb]. rewrite B. auto.
      + destruct (nth_error (q_recv s) (S (S i))) as [r|]; [|auto]. destruct (rstep cb s (S (S i)) d r) as [s1 r1] eqn:E.
        destruct (r_step _ _ _ _ _ _ _ E) as (T1 & _). cbn [set_recv q_recv]. rewrite T1, !nth_put. cbn [Nat.eqb]. auto. }
  apply G; [exact Hso|reflexivity|reflexivity].
Qed.
Lemma L_C86_two_refuted : forall cb v rest rs us cs sent, live v -> exists l,
  user_done (qrun cb (mkqst (v :: rest) false rs (TStopBegin :: TStopBegin :: us) cs sent) l) 1 SAttr.
Proof.
  intros cb [u r sh c] rest rs us cs sent (L1 & L2 & L3). cbn in L1, L2, L3. subst r sh c.
  exists [User 1; User 1; User 0; User 0; User 0; User 0; User 0; User 1; User 1]. reflexivity.
Qed.
Lemma L_C87_raise_refuted : forall cb ann v rest rs us cs sent, live v -> k_uni v = true ->
  let s := mkqst (v :: rest) false rs (TStopBegin :: TSendBegin ann :: us) cs sent in
  (exists l, user_done (qrun cb s l) 1 SAttr) /\ (exists l, user_done (qrun cb s l) 1 SOs).
Proof.
  intros cb ann [u r sh c] rest rs us cs sent (L1 & L2 & L3) Hu s. cbn in L1, L2, L3, Hu. subst u r sh c. split.
  - exists [User 1; User 1; User 0; User 0; User 0; User 0; User 0; User 1]. reflexivity.
  - exists [User 1; User 1; User 0; User 0; User 0; User 1]. reflexivity.
Qed.

(** Nobody stops the node. *)
Definition sok (a : list sk) (t : tpc) : Prop :=
  match t with
  | TStopBegin | TStop _ _ => False
  | TSendBegin _ => True
  | TSend _ k c => c = true -> forall v, nth_error a k = Some v -> k_ref v = true
  | TDone r => exists b, r = SVal b
  end.
Definition sokr (a : list sk) (r : rpc) : Prop := match r with RIn t => sok a t | _ => True end.
Definition quiet (a : list sk) (s : qst) : Prop := q_socks s = a /\ (forall i r, nth_error (q_recv s) i = Some r -> i < length a -> sokr a r) /\ Forall (sok a) (q_users s).
Definition settled (a : list sk) : Prop := forall k v, nth_error a k = Some v -> live v \/ k_ref v = false.
Lemma sok_step a self s t : settled a -> q_socks s = a -> sok a t -> forall s1 t1, tstep self s t = (s1, t1) -> sok a t1 /\ q_socks s1 = a /\ q_recv s1 = q_recv s /\ q_users s1 = q_users s.
Proof.
  intros Ha Hs Ht s1 t1 E. destruct (t_step _ _ _ _ _ E) as (T1 & _ & T3 & _). split; [|split; [|auto]]; revert E; destruct t as [|k ph|ann|ann k c|q]; try (now destruct Ht); cbn [tstep].
  - destruct (q_cleared s); intros [= <- <-]; [exists ann; reflexivity|cbn; discriminate].
  - rewrite Hs. destruct (nth_error a k) as [v|] eqn:Hv; [|intros [= <- <-]; exists ann; reflexivity].
    destruct (negb (k_uni v)); [intros [= <- <-]; discriminate|]. destruct c; cbn [negb].
    + pose proof (Ht eq_refl v Hv) as Hr. rewrite Hr. cbn [negb]. destruct (Ha _ _ Hv) as [(_ & L2 & L3)|L]; [|congruence]. rewrite L2, L3. cbn [orb].
      intros [= <- <-]. destruct ann; [discriminate|exists true; reflexivity].
    + intros [= <- <-]. destruct (k_ref v) eqn:Er; [|discriminate]. cbn. intros _ w Hw. congruence.
  - intros [= <- <-]. exact Ht.
  - destruct (q_cleared s); intros [= <- <-]; exact Hs.
  - destruct (nth_error (q_socks s) k) as [v|] eqn:Hv; [|intros [= <- <-]; exact Hs].
    destruct (negb (k_uni v)); [intros [= <- <-]; exact Hs|]. destruct (negb c); [intros [= <- <-]; exact Hs|].
    destruct (negb (k_ref v)); [intros [= <- <-]; exact Hs|]. destruct (k_shut v || k_closed v); intros [= <- <-]; exact Hs.
  - intros [= <- <-]. exact Hs.
Qed.
Lemma quiet_step a cb s e : settled a -> polite cb -> quiet a s -> quiet a (qstep cb s e).
Proof.
  intros Ha Hp (Q1 & Q2 & Q3). destruct e as [u|i d]; cbn [qstep].
  - destruct (nth_error (q_users s) u) as [t|] eqn:Ht; [|repeat split; assumption]. destruct (tstep None s t) as [s1 t1] eqn:E.
    assert (Hk : sok a t) by (rewrite Forall_forall in Q3; apply Q3; eapply nth_error_In; eauto).
    destruct (sok_step a None s t Ha Q1 Hk s1 t1 E) as (A & B & C & D). unfold quiet. cbn [set_users q_socks q_recv q_users]. rewrite C, D. split; [exact B|]. split; [exact Q2|]. now apply Forall_put.
  - destruct (nth_error (q_recv s) i) as [r|] eqn:Hr; [|repeat split; assumption].
    assert (G : forall s1 r1, rstep cb s i d r = (s1, r1) -> q_socks s1 = a /\ q_recv s1 = q_recv s /\ q_users s1 = q_users s /\ (i < length a -> sokr a r1)).
    { intros s1 r1. unfold rstep. rewrite Q1. destruct (nth_error a i) as [v|] eqn:Hv.
      2:{ intros [= <- <-]. apply nth_error_None in Hv. repeat split; try assumption. lia. }
      assert (Hi : i < length a) by (apply nth_error_Some; congruence). specialize (Q2 i r Hr Hi).
      destruct r as [| | |x|t|].
      - intros [= <- <-]. repeat split; try assumption. intros _. destruct (k_ref v); exact I.
      - intros [= <- <-]. repeat split; try assumption. intros _. destruct (k_ref v && _); exact I.
      - destruct d; intros [= <- <-]; repeat split; try assumption. intros _. destruct (k_shut v || k_closed v); exact I.
      - intros [= <- <-]. repeat split; try assumption. intros _. pose proof (Hp i x) as Hpx. destruct (cb i x); try exact I. now destruct Hpx.
      - destruct t as [|k ph|ann|ann k c|q]; try (now destruct Q2).
        + destruct (tstep (Some i) s (TSendBegin ann)) as [s2 t2] eqn:E. intros [= <- <-]. destruct (sok_step a _ s _ Ha Q1 Q2 _ _ E) as (A & B & C & D). repeat split; auto.
        + destruct (tstep (Some i) s (TSend ann k c)) as [s2 t2] eqn:E. intros [= <- <-]. destruct (sok_step a _ s _ Ha Q1 Q2 _ _ E) as (A & B & C & D). repeat split; auto.
        + destruct q; intros [= <- <-]; repeat split; assumption.
      - intros [= <- <-]. repeat split; assumption. }
    destruct (rstep cb s i d r) as [s1 r1] eqn:E. destruct (G _ _ eq_refl) as (A & B & C & D). unfold quiet. cbn [set_recv q_socks q_recv q_users]. rewrite B, C.
    split; [exact A|]. split; [|exact Q3]. intros j q. rewrite nth_put. destruct (Nat.eqb j i) eqn:Ej; [|apply Q2]. apply Nat.eqb_eq in Ej. subst j. rewrite Hr. intros [= <-]. exact D.
Qed.
Lemma L_C87_values_partial : forall cb s l u r, polite cb -> started s -> Forall asks_send (q_users s) ->
  user_done (qrun cb s l) u r -> exists b, r = SVal b.
Proof.
  intros cb s l u r Hp (S1 & S2 & S3) Hs Hr.
  assert (Ha : settled (q_socks s)).
  { intros k v Hv. destruct (nth_error (q_recv s) k) as [q|] eqn:Hq; [|apply nth_error_None in Hq; assert (k < length (q_socks s)) by (apply nth_error_Some; congruence); lia].
    destruct (S3 _ _ _ Hv Hq) as (_ & [L|((D & _) & _)]); auto. }
  assert (G : forall l s0, quiet (q_socks s) s0 -> quiet (q_socks s) (qrun cb s0 l)).
  { clear -Ha Hp. induction l as [|e l IH]; intros s0 H; [exact H|]. cbn [qrun fold_left]. apply (IH _ (quiet_step _ _ _ e Ha Hp H)). }
  destruct (G l s) as (_ & _ & Q3).
  - split; [reflexivity|]. split.
    + intros i q Hq Hi. destruct (nth_error (q_socks s) i) as [v|] eqn:Hv; [|apply nth_error_None in Hv; lia]. destruct (S3 _ _ _ Hv Hq) as (O & _). destruct q; try exact I. destruct O.
    + eapply Forall_impl; [|exact Hs]. intros t (ann & ->). exact I.
  - rewrite Forall_forall in Q3. apply (Q3 (TDone r)). eapply nth_error_In. exact Hr.
Qed.
