(** Lemmas for C106. *)
From Verif Require Import PyBase GcM SpecGc.
Local Open Scope nat_scope.

Lemma gset_length {A} k (x : A) l : length (gset k x l) = length l.
Proof. revert k. induction l as [|y l IH]; intros [|k]; cbn [gset length]; congruence. Qed.
Lemma nth_gset {A} k (x : A) l d j : nth j (gset k x l) d = if (j =? k) && (k <? length l) then x else nth j l d.
Proof.
  revert k j. induction l as [|y l IH]; intros k j; cbn [gset length].
  - rewrite andb_false_r. destruct k; reflexivity.
  - destruct k as [|k], j as [|j]; cbn [gset nth Nat.eqb andb]; [reflexivity|reflexivity|reflexivity|]. rewrite IH. reflexivity.
Qed.
Lemma srv_set w s v j : srv (set_srv s v w) j = if (j =? s) && (s <? length (gw_srvs w)) then v else srv w j.
Proof. unfold srv, set_srv. cbn [gw_srvs]. apply nth_gset. Qed.
Lemma servers_set w n l m : servers_of (set_servers n l w) m = if (m =? n) && (n <? length (gw_nodes w)) then l else servers_of w m.
Proof. unfold servers_of, set_servers. cbn [gw_nodes]. apply nth_gset. Qed.
Lemma srv_range w s : gs_open (srv w s) = true \/ gs_run (srv w s) = true -> s < length (gw_srvs w).
Proof. intros H. destruct (Nat.lt_ge_cases s (length (gw_srvs w))) as [L|G]; [exact L|]. unfold srv in H. rewrite nth_overflow in H by exact G. destruct H; discriminate. Qed.

(** [w1] is [w] with some servers of [X] stopped. *)
Definition stops (X : nat -> Prop) (w w1 : gworld) : Prop :=
  length (gw_nodes w1) = length (gw_nodes w) /\ length (gw_srvs w1) = length (gw_srvs w) /\ gw_held w1 = gw_held w /\
  (forall s, gs_obs (srv w1 s) = gs_obs (srv w s)) /\
  (forall s, gs_run (srv w1 s) = true -> gs_run (srv w s) = true) /\
  (forall s, gs_open (srv w1 s) = true -> gs_open (srv w s) = true) /\
  (forall s, ~ X s -> srv w1 s = srv w s) /\
  (forall n, incl (servers_of w1 n) (servers_of w n)).
Lemma stops_refl X w : stops X w w.
Proof. unfold stops. split; [reflexivity|]. split; [reflexivity|]. split; [reflexivity|]. split; [reflexivity|]. split; [auto|]. split; [auto|]. split; [reflexivity|]. intros n. apply incl_refl. Qed.
Lemma stops_trans X w w1 w2 : stops X w w1 -> stops X w1 w2 -> stops X w w2.
Proof.
  intros (A1 & A2 & A3 & A4 & A5 & A6 & A7 & A8) (B1 & B2 & B3 & B4 & B5 & B6 & B7 & B8). unfold stops.
  split; [congruence|]. split; [congruence|]. split; [congruence|]. split; [intros s; rewrite B4; apply A4|]. split; [auto|]. split; [auto|].
  split; [intros s N; rewrite B7 by exact N; apply A7, N|]. intros n. eapply incl_tran; [apply B8|apply A8].
Qed.
Lemma stops_weak (X Y : nat -> Prop) w w1 : (forall s, X s -> Y s) -> stops X w w1 -> stops Y w w1.
Proof. intros H (A1 & A2 & A3 & A4 & A5 & A6 & A7 & A8). unfold stops. repeat (split; [assumption|]). split; [|exact A8]. intros s N. apply A7. auto. Qed.
Lemma srv_stop_spec b s w w1 e : srv_stop b s w = (w1, e) ->
  stops (fun j => j = s) w w1 /\ gw_nodes w1 = gw_nodes w /\ gw_fin w1 = gw_fin w /\ gs_open (srv w1 s) = false /\
  (e = true -> b = Some s) /\ (e = false -> gs_open (srv w s) = true -> gs_run (srv w1 s) = false) /\ (gs_open (srv w s) = true -> b = Some s -> e = true).
Proof.
  unfold srv_stop. cbv zeta. destruct (gs_open (srv w s)) eqn:O.
  2:{ intros E. assert (w1 = w) as -> by congruence. assert (e = false) as -> by congruence. split; [apply stops_refl|]. repeat (split; [reflexivity|]). split; [exact O|]. split; [discriminate|]. split; [congruence|congruence]. }
  pose proof (srv_range w s (or_introl O)) as L. apply Nat.ltb_lt in L.
  assert (ST : forall r, (r = true -> gs_run (srv w s) = true) -> stops (fun j => j = s) w (set_srv s (mkgs false r (gs_obs (srv w s))) w)).
  { intros r Hr. unfold stops. split; [reflexivity|]. split; [apply gset_length|]. split; [reflexivity|].
    split; [intros j; rewrite srv_set, L; destruct (Nat.eqb_spec j s) as [->|]; reflexivity|].
    split; [intros j; rewrite srv_set, L; destruct (Nat.eqb_spec j s) as [->|]; cbn [andb gs_run]; auto|].
    split; [intros j; rewrite srv_set, L; destruct (Nat.eqb_spec j s) as [->|]; cbn [andb gs_open]; [discriminate|auto]|].
    split; [intros j N; rewrite srv_set, L; destruct (Nat.eqb_spec j s) as [->|]; [congruence|reflexivity]|]. intros n. apply incl_refl. }
  assert (OP : forall r, gs_open (srv (set_srv s (mkgs false r (gs_obs (srv w s))) w) s) = false) by (intros r; rewrite srv_set, Nat.eqb_refl, L; reflexivity).
  destruct (match b with Some b0 => b0 =? s | None => false end) eqn:B; intros E.
  - assert (w1 = set_srv s (mkgs false (gs_run (srv w s)) (gs_obs (srv w s))) w) as -> by congruence. assert (e = true) as -> by congruence.
    split; [apply ST; auto|]. split; [reflexivity|]. split; [reflexivity|]. split; [apply OP|]. split; [|split; [discriminate|reflexivity]].
    intros _. destruct b as [b|]; [|discriminate]. apply Nat.eqb_eq in B. congruence.
  - assert (w1 = set_srv s (mkgs false false (gs_obs (srv w s))) w) as -> by congruence. assert (e = false) as -> by congruence.
    split; [apply ST; discriminate|]. split; [reflexivity|]. split; [reflexivity|]. split; [apply OP|]. split; [discriminate|].
    split; [intros _ _; rewrite srv_set, Nat.eqb_refl, L; reflexivity|]. intros _ ->. rewrite Nat.eqb_refl in B. discriminate.
Qed.
Lemma stop_each_spec b l : forall w w1 e, stop_each b l w = (w1, e) ->
  stops (fun j => In j l) w w1 /\ gw_nodes w1 = gw_nodes w /\ gw_fin w1 = gw_fin w /\
  (e = true -> exists x, b = Some x /\ In x l) /\
  (e = false -> forall s, In s l -> gs_open (srv w1 s) = false /\ (gs_open (srv w s) = true -> gs_run (srv w1 s) = false)).
Proof.
  induction l as [|s l IH]; intros w w1 e; cbn [stop_each].
  - intros E. assert (w1 = w) as -> by congruence. assert (e = false) as -> by congruence. split; [apply stops_refl|]. repeat (split; [reflexivity|]). split; [discriminate|]. intros _ s [].
  - destruct (srv_stop b s w) as [wa ea] eqn:E. destruct (srv_stop_spec _ _ _ _ _ E) as (S1 & N1 & F1 & O1 & T1 & R1 & _). destruct ea.
    + intros X. assert (w1 = wa) as -> by congruence. assert (e = true) as -> by congruence. split; [eapply stops_weak; [|exact S1]; intros j ->; left; reflexivity|]. split; [exact N1|]. split; [exact F1|].
      split; [intros _; exists s; split; [apply T1; reflexivity|left; reflexivity]|discriminate].
    + intros X. destruct (IH _ _ _ X) as (S2 & N2 & F2 & T2 & R2).
      split; [eapply stops_trans; [eapply stops_weak; [|exact S1]; intros j ->; left; reflexivity|eapply stops_weak; [|exact S2]; intros j H; right; exact H]|].
      split; [congruence|]. split; [congruence|]. split; [intros H; destruct (T2 H) as (x & B & I); exists x; split; [exact B|right; exact I]|].
      intros H j [<-|I].
      * destruct S2 as (_ & _ & _ & _ & S25 & S26 & _). split.
        -- destruct (gs_open (srv w1 s)) eqn:Q; [apply S26 in Q; congruence|reflexivity].
        -- intros O. specialize (R1 eq_refl O). destruct (gs_run (srv w1 s)) eqn:Q; [apply S25 in Q; congruence|reflexivity].
      * destruct (R2 H j I) as (Q1 & Q2). split; [exact Q1|]. intros O. destruct (Nat.eq_dec j s) as [->|NE].
        -- specialize (R1 eq_refl O). destruct S2 as (_ & _ & _ & _ & S25 & _). destruct (gs_run (srv w1 s)) eqn:Q; [apply S25 in Q; congruence|reflexivity].
        -- apply Q2. destruct S1 as (_ & _ & _ & _ & _ & _ & S17 & _). rewrite S17 by exact NE. exact O.
Qed.
Lemma node_stop_spec b n w w1 : node_stop b n w = w1 ->
  stops (fun j => In j (servers_of w n)) w w1 /\ gw_fin w1 = gw_fin w /\ (forall m, m <> n -> servers_of w1 m = servers_of w m) /\
  (gw_nodes w1 = gw_nodes w \/ gw_nodes w1 = gset n [] (gw_nodes w)) /\
  ((forall x, b = Some x -> ~ In x (servers_of w n)) -> forall s, In s (servers_of w n) -> gs_open (srv w1 s) = false /\ (gs_open (srv w s) = true -> gs_run (srv w1 s) = false)).
Proof.
  unfold node_stop. destruct (stop_each b (servers_of w n) w) as [wa e] eqn:E. destruct (stop_each_spec _ _ _ _ _ E) as (S1 & N1 & F1 & T1 & R1).
  destruct e; intros <-.
  - split; [exact S1|]. split; [exact F1|]. split; [intros m _; unfold servers_of; rewrite N1; reflexivity|]. split; [left; exact N1|]. intros H. destruct (T1 eq_refl) as (x & B & I). destruct (H x B I).
  - split.
    + eapply stops_trans; [exact S1|]. unfold stops. split; [apply gset_length|]. repeat (split; [reflexivity|]). split; [auto|]. split; [auto|]. split; [reflexivity|].
      intros m. rewrite servers_set. destruct ((m =? n) && (n <? length (gw_nodes wa))); [intros x []|apply incl_refl].
    + split; [exact F1|]. split; [intros m M; rewrite servers_set; apply Nat.eqb_neq in M; rewrite M; unfold servers_of; rewrite N1; reflexivity|].
      split; [right; unfold set_servers; cbn [gw_nodes]; rewrite N1; reflexivity|]. intros _. exact (R1 eq_refl).
Qed.

Lemma reach_sub w (P : thing -> Prop) : (forall n, In n (gw_held w) -> P (TNode n)) -> (forall s, gs_run (srv w s) = true -> P (TSrv s)) ->
  (forall n s, P (TNode n) -> In s (servers_of w n) -> P (TSrv s)) -> (forall s n, P (TSrv s) -> In n (gs_obs (srv w s)) -> P (TNode n)) ->
  forall t, reach w t -> P t.
Proof. intros A B C D t H. induction H; eauto. Qed.
Lemma stops_reach X w w1 t : stops X w w1 -> reach w1 t -> reach w t.
Proof.
  intros (A1 & A2 & A3 & A4 & A5 & A6 & A7 & A8). apply reach_sub.
  - intros n. rewrite A3. apply reach_held.
  - intros s H. apply reach_run, A5, H.
  - intros n s H I. eapply reach_srv; [exact H|apply A8, I].
  - intros s n H. rewrite A4. apply reach_obs, H.
Qed.

(** Observers. *)
Lemma observe_spec x s w : let w1 := observe x s w in
  gw_nodes w1 = gw_nodes w /\ gw_held w1 = gw_held w /\ gw_fin w1 = gw_fin w /\ length (gw_srvs w1) = length (gw_srvs w) /\
  forall j, gs_open (srv w1 j) = gs_open (srv w j) /\ gs_run (srv w1 j) = gs_run (srv w j) /\ incl (gs_obs (srv w j)) (gs_obs (srv w1 j)) /\
    (forall y, In y (gs_obs (srv w1 j)) -> In y (gs_obs (srv w j)) \/ y = x /\ j = s) /\ (j = s -> s < length (gw_srvs w) -> In x (gs_obs (srv w1 j))).
Proof.
  cbv zeta. unfold observe. cbv zeta. destruct (existsb (Nat.eqb x) (gs_obs (srv w s))) eqn:X.
  - do 4 (split; [reflexivity|]). intros j. do 2 (split; [reflexivity|]). split; [apply incl_refl|]. split; [auto|].
    intros -> _. apply existsb_exists in X. destruct X as (y & I & E). apply Nat.eqb_eq in E. congruence.
  - split; [reflexivity|]. split; [reflexivity|]. split; [reflexivity|]. split; [apply gset_length|]. intros j. rewrite srv_set.
    destruct (Nat.eqb_spec j s) as [->|N]; cbn [andb].
    + destruct (Nat.ltb_spec s (length (gw_srvs w))) as [L|G]; cbn [gs_open gs_run gs_obs].
      * split; [reflexivity|]. split; [reflexivity|]. split; [apply incl_appl, incl_refl|]. split.
        -- intros y I. apply in_app_or in I. destruct I as [I|[<-|[]]]; auto.
        -- intros _ _. apply in_or_app. right. left. reflexivity.
      * split; [reflexivity|]. split; [reflexivity|]. split; [apply incl_refl|]. split; [auto|]. intros _ H. lia.
    + split; [reflexivity|]. split; [reflexivity|]. split; [apply incl_refl|]. split; [auto|]. congruence.
Qed.
Lemma watch_spec n x w : let w1 := watch n x w in
  gw_nodes w1 = gw_nodes w /\ gw_held w1 = gw_held w /\ gw_fin w1 = gw_fin w /\ length (gw_srvs w1) = length (gw_srvs w) /\
  forall j, gs_open (srv w1 j) = gs_open (srv w j) /\ gs_run (srv w1 j) = gs_run (srv w j) /\ incl (gs_obs (srv w j)) (gs_obs (srv w1 j)) /\
    (forall y, In y (gs_obs (srv w1 j)) -> In y (gs_obs (srv w j)) \/ y = x /\ In j (servers_of w n)) /\
    (In j (servers_of w n) -> j < length (gw_srvs w) -> In x (gs_obs (srv w1 j))).
Proof.
  cbv zeta. unfold watch. generalize (servers_of w n) as l. intros l. revert w.
  induction l as [|s l IH]; intros w; cbn [fold_left].
  - do 4 (split; [reflexivity|]). intros j. do 2 (split; [reflexivity|]). split; [apply incl_refl|]. split; [auto|]. intros [].
  - destruct (observe_spec x s w) as (A1 & A2 & A3 & A4 & A5). destruct (IH (observe x s w)) as (B1 & B2 & B3 & B4 & B5).
    split; [congruence|]. split; [congruence|]. split; [congruence|]. split; [congruence|]. intros j.
    destruct (A5 j) as (C1 & C2 & C3 & C4 & C5). destruct (B5 j) as (D1 & D2 & D3 & D4 & D5).
    split; [congruence|]. split; [congruence|]. split; [eapply incl_tran; eassumption|]. split.
    + intros y I. destruct (D4 y I) as [I1|(-> & I1)]; [|right; split; [reflexivity|right; exact I1]]. destruct (C4 y I1) as [I2|(-> & ->)]; [left; exact I2|right; split; [reflexivity|left; reflexivity]].
    + intros [->|I] L; [apply D3, C5; [reflexivity|exact L]|]. apply D5; [exact I|]. rewrite A4. exact L.
Qed.

(** Starting. *)
Fixpoint leading (ok : list bool) : nat := match ok with true :: r => S (leading r) | _ => 0 end.
Lemma servers_range w n s : In s (servers_of w n) -> n < length (gw_nodes w).
Proof. intros I. destruct (Nat.lt_ge_cases n (length (gw_nodes w))) as [L|G]; [exact L|]. unfold servers_of in I. rewrite nth_overflow in I by exact G. destruct I. Qed.
Lemma start_each_spec n ok : forall w w1 good, n < length (gw_nodes w) -> start_each n ok w = (w1, good) ->
  gw_held w1 = gw_held w /\ gw_fin w1 = gw_fin w /\ length (gw_nodes w1) = length (gw_nodes w) /\
  servers_of w1 n = servers_of w n ++ seq (length (gw_srvs w)) (leading ok) /\ (forall m, m <> n -> servers_of w1 m = servers_of w m) /\
  gw_srvs w1 = gw_srvs w ++ repeat (mkgs true true []) (leading ok) ++ (if good then [] else [mkgs true false []]) /\ good = forallb (fun b => b) ok.
Proof.
  induction ok as [|b ok IH]; intros w w1 good L; cbn [start_each leading repeat forallb].
  - intros E. assert (w1 = w) as -> by congruence. assert (good = true) as -> by congruence. repeat (split; [reflexivity|]). split; [cbn [seq]; rewrite app_nil_r; reflexivity|]. split; [reflexivity|]. split; [cbn [app]; rewrite app_nil_r; reflexivity|reflexivity].
  - destruct b.
    + intros E. apply IH in E; [|unfold set_servers; cbn [gw_nodes]; rewrite gset_length; exact L]. destruct E as (E1 & E2 & E3 & E4 & E5 & E6 & E7).
      split; [exact E1|]. split; [exact E2|]. split; [rewrite E3; unfold set_servers; cbn [gw_nodes]; apply gset_length|].
      split.
      * rewrite E4, servers_set. cbn [gw_nodes]. rewrite Nat.eqb_refl. apply Nat.ltb_lt in L. rewrite L. cbn [andb]. unfold set_servers. cbn [gw_srvs]. rewrite app_length. cbn [length seq]. rewrite Nat.add_1_r, <- app_assoc. reflexivity.
      * split; [intros m M; rewrite E5 by exact M; rewrite servers_set; apply Nat.eqb_neq in M; rewrite M; reflexivity|].
        split; [rewrite E6; unfold set_servers; cbn [gw_srvs repeat]; rewrite <- app_assoc; reflexivity|exact E7].
    + intros E. assert (good = false) as -> by congruence. assert (w1 = mkgw (gw_nodes w) (gw_srvs w ++ [mkgs true false []]) (gw_held w) (gw_fin w)) as -> by congruence.
      repeat (split; [reflexivity|]). split; [cbn [seq]; rewrite app_nil_r; reflexivity|]. split; [reflexivity|]. split; reflexivity.
Qed.
Lemma srv_old w w1 l s : gw_srvs w1 = gw_srvs w ++ l -> s < length (gw_srvs w) -> srv w1 s = srv w s.
Proof. intros E L. unfold srv. rewrite E. apply app_nth1, L. Qed.
Lemma nth_rep {A} (x d : A) k r j : j < k -> nth j (repeat x k ++ r) d = x.
Proof. revert j. induction k as [|k IH]; intros j L; [lia|]. cbn [repeat app]. destruct j as [|j]; [reflexivity|]. cbn [nth]. apply IH. lia. Qed.
Lemma srv_new w w1 k r s : gw_srvs w1 = gw_srvs w ++ repeat (mkgs true true []) k ++ r -> length (gw_srvs w) <= s < length (gw_srvs w) + k -> srv w1 s = mkgs true true [].
Proof. intros E L. unfold srv. rewrite E. rewrite app_nth2 by lia. apply nth_rep. lia. Qed.
Lemma srv_new_obs w w1 k (good : bool) s : gw_srvs w1 = gw_srvs w ++ repeat (mkgs true true []) k ++ (if good then [] else [mkgs true false []]) -> length (gw_srvs w) <= s -> gs_obs (srv w1 s) = [].
Proof.
  intros E L. destruct (Nat.lt_ge_cases s (length (gw_srvs w) + k)) as [L1|L1]; [rewrite (srv_new w w1 k _ s E (conj L L1)); reflexivity|].
  unfold srv. rewrite E, app_nth2 by lia. rewrite app_nth2 by (rewrite repeat_length; lia). destruct (s - length (gw_srvs w) - length (repeat (mkgs true true []) k)) as [|[|j]]; destruct good; reflexivity.
Qed.

(** Finalising. *)
Lemma finalise_spec b t w w1 : finalise b t w = w1 ->
  stops (fun j => t = TSrv j \/ exists n, t = TNode n /\ In j (servers_of w n)) w w1 /\
  (forall m, t <> TNode m -> servers_of w1 m = servers_of w m) /\ (forall n, In n (gw_fin w1) <-> In n (gw_fin w) \/ t = TNode n).
Proof.
  destruct t as [n|s]; cbn [finalise]; cbv zeta; intros <-.
  - destruct (node_stop_spec b n w _ eq_refl) as (S & F & O & _). split; [|split].
    + eapply stops_weak with (X := fun j => In j (servers_of w n)); [intros j I; right; exists n; split; [reflexivity|exact I]|]. exact S.
    + intros m M. apply O. congruence.
    + intros m. cbn [gw_fin]. rewrite F. split; [intros [<-|I]; [right; reflexivity|left; exact I]|]. intros [I|E]; [right; exact I|left; congruence].
  - destruct (srv_stop b s w) as [wa e] eqn:E. cbn [fst]. destruct (srv_stop_spec _ _ _ _ _ E) as (S & N & F & _). split; [|split].
    + eapply stops_weak; [|exact S]. intros j ->. left. reflexivity.
    + intros m _. unfold servers_of. rewrite N. reflexivity.
    + intros m. rewrite F. split; [auto|]. intros [I|I]; [exact I|discriminate].
Qed.
Lemma finalise_all_spec b ts : forall w w1, finalise_all b ts w = w1 ->
  stops (fun j => In (TSrv j) ts \/ exists n, In (TNode n) ts /\ In j (servers_of w n)) w w1 /\
  (forall m, ~ In (TNode m) ts -> servers_of w1 m = servers_of w m) /\ (forall n, In n (gw_fin w1) <-> In n (gw_fin w) \/ In (TNode n) ts).
Proof.
  unfold finalise_all. induction ts as [|t ts IH]; intros w w1; cbn [fold_left].
  - intros <-. split; [apply stops_refl|]. split; [reflexivity|]. intros n. split; [auto|]. intros [I|[]]. exact I.
  - intros E. destruct (finalise_spec b t w _ eq_refl) as (S1 & O1 & F1). destruct (IH _ _ E) as (S2 & O2 & F2). split; [|split].
    + eapply stops_trans; [eapply stops_weak; [|exact S1]|eapply stops_weak; [|exact S2]].
      * intros j [->|(n & -> & I)]; [left; left; reflexivity|right; exists n; split; [left; reflexivity|exact I]].
      * destruct S1 as (_ & _ & _ & _ & _ & _ & _ & S18). intros j [I|(n & I & J)]; [left; right; exact I|right; exists n; split; [right; exact I|apply S18, J]].
    + intros m M. rewrite O2 by (intros I; apply M; right; exact I). apply O1. intros ->. apply M. left. reflexivity.
    + intros n. rewrite F2, F1. cbn [In]. tauto.
Qed.

(** What holds in every reachable world. *)
Definition sane (n : nat) (w : gworld) : Prop := forall s, In s (servers_of w n) -> gs_open (srv w s) = false -> gs_run (srv w s) = false.
Record ginv (w : gworld) : Prop := mkginv {
  gi_own : forall s n m, In s (servers_of w n) -> In s (servers_of w m) -> n = m;
  gi_rng : forall s n, In s (servers_of w n) -> s < length (gw_srvs w);
  gi_sane : forall n, ~ In n (gw_fin w) -> sane n w;
  gi_fin : forall n, In n (gw_fin w) -> ~ reach w (TNode n);
  gi_node : forall n, reach w (TNode n) \/ In n (gw_fin w) -> n < length (gw_nodes w) }.

Lemma held_alive w n : ginv w -> In n (gw_held w) -> ~ In n (gw_fin w) /\ n < length (gw_nodes w).
Proof. intros I H. split; [intros F; exact (gi_fin _ I n F (reach_held _ _ H))|apply (gi_node _ I); left; apply reach_held, H]. Qed.
Lemma stops_inv X w w1 : ginv w -> stops X w w1 -> (forall n, ~ In n (gw_fin w1) -> sane n w1) ->
  (forall n, In n (gw_fin w1) -> In n (gw_fin w) \/ (~ reach w (TNode n) /\ n < length (gw_nodes w))) -> ginv w1.
Proof.
  intros I S SA F. pose proof S as (A1 & A2 & A3 & A4 & A5 & A6 & A7 & A8). constructor.
  - intros s n m H1 H2. exact (gi_own _ I s n m (A8 _ _ H1) (A8 _ _ H2)).
  - intros s n H. rewrite A2. exact (gi_rng _ I s n (A8 _ _ H)).
  - exact SA.
  - intros n H R. apply (stops_reach _ _ _ _ S) in R. destruct (F n H) as [K|(K & _)]; [exact (gi_fin _ I n K R)|exact (K R)].
  - intros n H. rewrite A1. destruct H as [H|H]; [apply (gi_node _ I); left; exact (stops_reach _ _ _ _ S H)|]. destruct (F n H) as [K|(_ & L)]; [apply (gi_node _ I); right; exact K|exact L].
Qed.
(** Stopping keeps [sane]. *)
Lemma sane_other X n w w1 : stops X w w1 -> sane n w -> (forall s, In s (servers_of w n) -> ~ X s) -> sane n w1.
Proof. intros (A1 & A2 & A3 & A4 & A5 & A6 & A7 & A8) H N s I O. rewrite A7 in * by (apply N, A8, I). exact (H s (A8 _ _ I) O). Qed.
Lemma sane_stop b n m w : ginv w -> sane m w -> (m = n -> forall x, b = Some x -> ~ In x (servers_of w n)) -> sane m (node_stop b n w).
Proof.
  intros I SA B. destruct (node_stop_spec b n w _ eq_refl) as (S & _ & _ & _ & C). destruct (Nat.eq_dec m n) as [->|N].
  - intros s H O. destruct S as (_ & _ & _ & _ & S5 & _ & _ & S8). specialize (S8 _ _ H). destruct (C (B eq_refl) s S8) as (_ & C2). destruct (gs_open (srv w s)) eqn:Q; [apply C2; reflexivity|].
    specialize (SA s S8 Q). destruct (gs_run (srv (node_stop b n w) s)) eqn:R; [apply S5 in R; congruence|reflexivity].
  - eapply sane_other; [exact S|exact SA|]. intros s H1 H2. apply N. exact (gi_own _ I s m n H1 H2).
Qed.
Lemma sane_fin b t m w : ginv w -> sane m w -> t <> TNode m -> (forall x, b = Some x -> t <> TSrv x) -> sane m (finalise b t w).
Proof.
  intros I SA N B. destruct t as [n|s]; cbn [finalise]; cbv zeta.
  - apply sane_stop; [exact I|exact SA|]. intros ->. congruence.
  - destruct (srv_stop b s w) as [wa e] eqn:E. cbn [fst]. destruct (srv_stop_spec _ _ _ _ _ E) as (S & G & _ & _ & T & R & _). intros j H O.
    unfold servers_of in H. rewrite G in H. destruct (Nat.eq_dec j s) as [->|J].
    + destruct (gs_open (srv w s)) eqn:Q; [|specialize (SA s H Q); destruct S as (_ & _ & _ & _ & S5 & _); destruct (gs_run (srv wa s)) eqn:K; [apply S5 in K; congruence|reflexivity]].
      apply R; [|reflexivity]. destruct e; [|reflexivity]. exfalso. exact (B s (T eq_refl) eq_refl).
    + destruct S as (_ & _ & _ & _ & _ & _ & S7 & _). rewrite S7 in * by exact J. exact (SA j H O).
Qed.
Lemma finalise_inv b t w : ginv w -> ~ reach w t -> (forall n, t = TNode n -> n < length (gw_nodes w)) ->
  (forall x, b = Some x -> t <> TSrv x) -> ginv (finalise b t w).
Proof.
  intros I R L B. destruct (finalise_spec b t w _ eq_refl) as (S & O & F). eapply stops_inv; [exact I|exact S| |].
  - intros n N. rewrite F in N. apply sane_fin; [exact I|apply (gi_sane _ I); tauto|intros ->; tauto|exact B].
  - intros n H. apply F in H. destruct H as [H| ->]; [left; exact H|right; split; [exact R|apply L; reflexivity]].
Qed.
Lemma finalise_all_inv b ts : forall w, ginv w -> (forall t, In t ts -> ~ reach w t) -> (forall n, In (TNode n) ts -> n < length (gw_nodes w)) ->
  (forall x, b = Some x -> ~ In (TSrv x) ts) -> ginv (finalise_all b ts w).
Proof.
  unfold finalise_all. induction ts as [|t ts IH]; intros w I R L B; cbn [fold_left]; [exact I|].
  destruct (finalise_spec b t w _ eq_refl) as (S & _). apply IH.
  - apply finalise_inv; [exact I|apply R; left; reflexivity|intros n ->; apply L; left; reflexivity|]. intros x E ->. apply (B x E). left. reflexivity.
  - intros u H K. apply (stops_reach _ _ _ _ S) in K. exact (R u (or_intror H) K).
  - intros n H. destruct S as (-> & _). apply L. right. exact H.
  - intros x E H. apply (B x E). right. exact H.
Qed.
Lemma stop_inv n w : ginv w -> ginv (node_stop None n w).
Proof.
  intros I. destruct (node_stop_spec None n w _ eq_refl) as (S & F & _). eapply stops_inv; [exact I|exact S| |].
  - intros m N. rewrite F in N. apply sane_stop; [exact I|apply (gi_sane _ I); exact N|discriminate].
  - intros m H. left. congruence.
Qed.
Lemma watch_reach n x w t : reach w (TNode x) -> reach (watch n x w) t -> reach w t.
Proof.
  intros X. destruct (watch_spec n x w) as (A1 & A2 & A3 & A4 & A5). apply reach_sub.
  - intros m. rewrite A2. apply reach_held.
  - intros s H. destruct (A5 s) as (_ & E & _). apply reach_run. congruence.
  - intros m s H J. unfold servers_of in J. rewrite A1 in J. exact (reach_srv _ _ _ H J).
  - intros s m H J. destruct (A5 s) as (_ & _ & _ & E & _). destruct (E m J) as [K|(-> & _)]; [exact (reach_obs _ _ _ H K)|exact X].
Qed.
Lemma watch_inv n x w : ginv w -> reach w (TNode x) -> ginv (watch n x w).
Proof.
  intros I X. destruct (watch_spec n x w) as (A1 & A2 & A3 & A4 & A5). constructor.
  - intros s m k. unfold servers_of. rewrite A1. apply (gi_own _ I).
  - intros s m. rewrite A4. unfold servers_of. rewrite A1. apply (gi_rng _ I).
  - intros m N s. unfold servers_of. rewrite A1. destruct (A5 s) as (-> & -> & _). rewrite A3 in N. exact (gi_sane _ I m N s).
  - intros m. rewrite A3. intros F R. exact (gi_fin _ I m F (watch_reach _ _ _ _ X R)).
  - intros m. rewrite A1, A3. intros [R|F]; apply (gi_node _ I); [left; exact (watch_reach _ _ _ _ X R)|right; exact F].
Qed.
Lemma start_reach n ok w w1 good t : ginv w -> n < length (gw_nodes w) -> start_each n ok w = (w1, good) -> reach w1 t ->
  reach w t \/ exists s, t = TSrv s /\ length (gw_srvs w) <= s.
Proof.
  intros I L E. destruct (start_each_spec n ok w w1 good L E) as (E1 & E2 & E3 & E4 & E5 & E6 & E7).
  apply (reach_sub w1 (fun t => reach w t \/ exists s, t = TSrv s /\ length (gw_srvs w) <= s)).
  - intros m H. left. apply reach_held. congruence.
  - intros s H. destruct (Nat.lt_ge_cases s (length (gw_srvs w))) as [Q|Q]; [left; apply reach_run; rewrite <- (srv_old _ _ _ _ E6 Q); exact H|right; exists s; split; [reflexivity|exact Q]].
  - intros m s H J. destruct (Nat.lt_ge_cases s (length (gw_srvs w))) as [Q|Q]; [|right; exists s; split; [reflexivity|exact Q]]. left.
    destruct H as [H|(k & X & _)]; [|discriminate]. apply (reach_srv _ m); [exact H|]. destruct (Nat.eq_dec m n) as [->|N]; [|rewrite E5 in J by exact N; exact J].
    rewrite E4 in J. apply in_app_or in J. destruct J as [J|J]; [exact J|]. apply in_seq in J. lia.
  - intros s m H J. left. destruct (Nat.lt_ge_cases s (length (gw_srvs w))) as [Q|Q].
    + rewrite (srv_old _ _ _ _ E6 Q) in J. destruct H as [H|(k & X & Y)]; [exact (reach_obs _ _ _ H J)|]. assert (s = k) by congruence. lia.
    + rewrite (srv_new_obs _ _ _ _ _ E6 Q) in J. destruct J.
Qed.
Lemma start_each_inv n ok w w1 good : ginv w -> n < length (gw_nodes w) -> start_each n ok w = (w1, good) -> ginv w1.
Proof.
  intros I L E. destruct (start_each_spec n ok w w1 good L E) as (E1 & E2 & E3 & E4 & E5 & E6 & E7).
  assert (SV : forall s m, In s (servers_of w1 m) -> In s (servers_of w m) \/ m = n /\ length (gw_srvs w) <= s < length (gw_srvs w) + leading ok).
  { intros s m J. destruct (Nat.eq_dec m n) as [->|N]; [|rewrite E5 in J by exact N; left; exact J]. rewrite E4 in J. apply in_app_or in J. destruct J as [J|J]; [left; exact J|]. apply in_seq in J. right. split; [reflexivity|exact J]. }
  constructor.
  - intros s m k H1 H2. apply SV in H1, H2. destruct H1 as [H1|(-> & H1)], H2 as [H2|(-> & H2)].
    + exact (gi_own _ I s m k H1 H2).
    + apply (gi_rng _ I) in H1. lia.
    + apply (gi_rng _ I) in H2. lia.
    + reflexivity.
  - intros s m H. rewrite E6, !app_length, repeat_length. apply SV in H. destruct H as [H|(_ & H)]; [apply (gi_rng _ I) in H|]; lia.
  - intros m N s J O. rewrite E2 in N. apply SV in J. destruct J as [J|(-> & J)].
    + rewrite (srv_old _ _ _ _ E6 (gi_rng _ I _ _ J)) in *. exact (gi_sane _ I m N s J O).
    + rewrite (srv_new _ _ _ _ _ E6 J) in O. discriminate.
  - intros m F R. rewrite E2 in F. destruct (start_reach n ok w w1 good _ I L E R) as [K|(s & X & _)]; [exact (gi_fin _ I m F K)|discriminate].
  - intros m H. rewrite E3. rewrite E2 in H. apply (gi_node _ I). destruct H as [H|H]; [|right; exact H]. destruct (start_reach n ok w w1 good _ I L E H) as [K|(s & X & _)]; [left; exact K|discriminate].
Qed.
Lemma gempty_inv : ginv gempty.
Proof.
  constructor.
  - intros s n m H. apply servers_range in H. cbn in H. lia.
  - intros s n H. apply servers_range in H. cbn in H. lia.
  - intros n _ s H. apply servers_range in H. cbn in H. lia.
  - intros n [].
  - intros n [H|[]]. exfalso. assert (X : forall t, reach gempty t -> False); [|exact (X _ H)]. apply reach_sub; [intros m []| |auto|auto]. intros s J. unfold srv in J. destruct s; discriminate J.
Qed.
Lemma gstep_inv w e w1 : ginv w -> gstep w e w1 -> ginv w1.
Proof.
  intros I H. destruct H as [|n R|n|n ok Hn|n Hn|n x Hn Hx|s Rs|b ts R F B].
  - assert (RS : forall t, reach (mkgw (gw_nodes w ++ [[]]) (gw_srvs w) (length (gw_nodes w) :: gw_held w) (gw_fin w)) t -> reach w t \/ t = TNode (length (gw_nodes w))).
    { apply reach_sub; cbn [gw_held].
      - intros m [<-|J]; [right; reflexivity|left; apply reach_held, J].
      - intros s J. left. apply reach_run, J.
      - intros m s J K. left. unfold servers_of in K. cbn [gw_nodes] in K. destruct (Nat.lt_ge_cases m (length (gw_nodes w))) as [L|L].
        + rewrite app_nth1 in K by exact L. destruct J as [J|J]; [exact (reach_srv _ _ _ J K)|]. assert (m = length (gw_nodes w)) by congruence. lia.
        + rewrite app_nth2 in K by exact L. destruct (m - length (gw_nodes w)) as [|[|j]]; destruct K.
      - intros s m J K. left. destruct J as [J|J]; [exact (reach_obs _ _ _ J K)|discriminate]. }
    assert (SV : forall m, servers_of (mkgw (gw_nodes w ++ [[]]) (gw_srvs w) (length (gw_nodes w) :: gw_held w) (gw_fin w)) m = servers_of w m).
    { intros m. unfold servers_of. cbn [gw_nodes]. destruct (Nat.lt_ge_cases m (length (gw_nodes w))) as [L|L]; [apply app_nth1, L|].
      rewrite app_nth2 by exact L. rewrite (nth_overflow (gw_nodes w)) by exact L. destruct (m - length (gw_nodes w)) as [|[|j]]; reflexivity. }
    constructor.
    + intros s m k. rewrite !SV. apply (gi_own _ I).
    + intros s m. rewrite SV. apply (gi_rng _ I).
    + intros m N s. rewrite SV. exact (gi_sane _ I m N s).
    + intros m F R. destruct (RS _ R) as [K|K]; [exact (gi_fin _ I m F K)|]. assert (m = length (gw_nodes w)) as -> by congruence. pose proof (gi_node _ I _ (or_intror F)). lia.
    + intros m J. cbn [gw_nodes]. rewrite app_length. cbn [length]. cbn [gw_fin] in J. destruct J as [J|J]; [destruct (RS _ J) as [K|K]|].
      * pose proof (gi_node _ I _ (or_introl K)). lia.
      * assert (m = length (gw_nodes w)) as -> by congruence. lia.
      * pose proof (gi_node _ I _ (or_intror J)). lia.
  - assert (RS : forall t, reach (mkgw (gw_nodes w) (gw_srvs w) (n :: gw_held w) (gw_fin w)) t -> reach w t).
    { apply reach_sub; cbn [gw_held].
      - intros m [<-|J]; [exact R|apply reach_held, J].
      - intros s J. apply reach_run, J.
      - intros m s J K. exact (reach_srv _ _ _ J K).
      - intros s m J K. exact (reach_obs _ _ _ J K). }
    constructor; [exact (gi_own _ I)|exact (gi_rng _ I)|exact (gi_sane _ I)| |].
    + intros m F K. exact (gi_fin _ I m F (RS _ K)).
    + intros m [J|J]; apply (gi_node _ I); [left; exact (RS _ J)|right; exact J].
  - assert (RS : forall t, reach (mkgw (gw_nodes w) (gw_srvs w) (remove Nat.eq_dec n (gw_held w)) (gw_fin w)) t -> reach w t).
    { apply reach_sub; cbn [gw_held].
      - intros m J. apply reach_held. apply in_remove in J. apply J.
      - intros s J. apply reach_run, J.
      - intros m s J K. exact (reach_srv _ _ _ J K).
      - intros s m J K. exact (reach_obs _ _ _ J K). }
    constructor; [exact (gi_own _ I)|exact (gi_rng _ I)|exact (gi_sane _ I)| |].
    + intros m F K. exact (gi_fin _ I m F (RS _ K)).
    + intros m [J|J]; apply (gi_node _ I); [left; exact (RS _ J)|right; exact J].
  - unfold node_start. destruct (start_each n ok (node_stop None n w)) as [wa good] eqn:E.
    destruct (node_stop_spec None n w _ eq_refl) as (S & _). pose proof (held_alive _ _ I Hn) as (_ & L). destruct S as (A1 & _ & A3 & _).
    rewrite <- A1 in L. pose proof (start_each_inv n ok _ _ _ (stop_inv n w I) L E) as I2. destruct good; [|exact I2].
    apply watch_inv; [exact I2|]. apply reach_held. destruct (start_each_spec n ok _ _ _ L E) as (-> & _). rewrite A3. exact Hn.
  - apply stop_inv, I.
  - apply watch_inv; [exact I|apply reach_held, Hx].
  - assert (L : (s <? length (gw_srvs w)) = true) by (apply Nat.ltb_lt, srv_range; right; exact Rs).
    assert (S : stops (fun j => j = s) w (set_srv s (mkgs (gs_open (srv w s)) false (gs_obs (srv w s))) w)).
    { unfold stops. split; [reflexivity|]. split; [apply gset_length|]. split; [reflexivity|].
      split; [intros j; rewrite srv_set, L; destruct (Nat.eqb_spec j s) as [->|]; reflexivity|].
      split; [intros j; rewrite srv_set, L; destruct (Nat.eqb_spec j s) as [->|]; cbn [andb gs_run]; [discriminate|auto]|].
      split; [intros j; rewrite srv_set, L; destruct (Nat.eqb_spec j s) as [->|]; cbn [andb gs_open]; auto|].
      split; [intros j N; rewrite srv_set, L; destruct (Nat.eqb_spec j s) as [->|]; [congruence|reflexivity]|]. intros n. apply incl_refl. }
    eapply stops_inv; [exact I|exact S| |intros m F; left; exact F].
    intros m N j J O. rewrite srv_set, L in *. destruct (Nat.eqb_spec j s) as [->|]; cbn [andb gs_run gs_open] in *; [reflexivity|]. exact (gi_sane _ I m N j J O).
  - apply finalise_all_inv; [exact I|exact R|intros n H; apply F, H|]. intros x E H. apply (R _ H), reach_run, B, E.
Qed.
Lemma gruns_inv w es w1 : ginv w -> gruns w es w1 -> ginv w1.
Proof. intros I H. induction H as [|w e w1 es w2 S _ IH]; [exact I|]. apply IH. exact (gstep_inv _ _ _ I S). Qed.

Lemma collect_safe w b ts n : ginv w -> (forall t, In t ts -> ~ reach w t) -> reach w (TNode n) -> let w1 := finalise_all b ts w in
  ~ In n (gw_fin w1) /\ servers_of w1 n = servers_of w n /\ forall s, In s (servers_of w n) -> srv w1 s = srv w s.
Proof.
  intros I R H w1. destruct (finalise_all_spec b ts w _ eq_refl) as ((A1 & A2 & A3 & A4 & A5 & A6 & A7 & A8) & O & F). fold w1 in A7, O, F.
  assert (N : ~ In (TNode n) ts) by (intros J; exact (R _ J H)). split; [rewrite F; intros [J|J]; [exact (gi_fin _ I n J H)|exact (N J)]|].
  split; [apply O, N|]. intros s J. apply A7. intros [K|(m & K & L)]; [exact (R _ K (reach_srv _ _ _ H J))|].
  assert (m = n) as -> by exact (gi_own _ I s m n L J). exact (N K).
Qed.
Lemma L_C106_safe : forall es w n, gruns gempty es w -> reach w (TNode n) ->
  ~ In n (gw_fin w) /\ forall by_ ts w', gstep w (ECollect by_ ts) w' ->
  ~ In n (gw_fin w') /\ gw_held w' = gw_held w /\ servers_of w' n = servers_of w n /\ forall s, In s (servers_of w n) -> srv w' s = srv w s.
Proof.
  intros es w n G H. pose proof (gruns_inv _ _ _ gempty_inv G) as I. split; [intros F; exact (gi_fin _ I n F H)|].
  intros b ts w' S. inversion S as [| | | | | | |b0 ts0 R F B]; subst. destruct (collect_safe w b ts n I R H) as (C1 & C2 & C3).
  split; [exact C1|]. split; [|split; [exact C2|exact C3]]. destruct (finalise_all_spec b ts w _ eq_refl) as ((_ & _ & A3 & _) & _). exact A3.
Qed.

(** A working server of a node that nobody stops. *)
Definition held_up (n s : nat) (w : gworld) : Prop :=
  In s (servers_of w n) /\ works w s /\ (In n (gs_obs (srv w s)) \/ In n (gw_fin w)).
Lemma held_up_step n s w e w1 : ginv w -> held_up n s w -> untouched n e \/ In n (gw_fin w) -> e <> EEnd s -> gstep w e w1 -> held_up n s w1.
Proof.
  intros I (Hs & (Wo & Wr) & Hn) U NE H. pose proof (gi_rng _ I _ _ Hs) as L.
  destruct H as [|m R|m|m ok Hm|m Hm|m x Hm Hx|j Rj|b ts R F B].
  - split; [|split; [split; [exact Wo|exact Wr]|exact Hn]]. unfold servers_of. cbn [gw_nodes]. rewrite app_nth1 by exact (servers_range _ _ _ Hs). exact Hs.
  - split; [exact Hs|]. split; [split; [exact Wo|exact Wr]|exact Hn].
  - split; [exact Hs|]. split; [split; [exact Wo|exact Wr]|exact Hn].
  - assert (m <> n) as M. { intros ->. destruct U as [(U & _)|U]; [exact (U ok eq_refl)|]. exact (proj1 (held_alive _ _ I Hm) U). }
    destruct (node_stop_spec None m w _ eq_refl) as ((A1 & A2 & A3 & A4 & A5 & A6 & A7 & A8) & F & O & _).
    unfold node_start. destruct (start_each m ok (node_stop None m w)) as [wa good] eqn:E.
    pose proof (held_alive _ _ I Hm) as (_ & Lm). rewrite <- A1 in Lm. destruct (start_each_spec m ok _ _ _ Lm E) as (E1 & E2 & E3 & E4 & E5 & E6 & E7).
    assert (V : srv wa s = srv w s). { rewrite (srv_old _ _ _ _ E6) by (rewrite A2; exact L). apply A7. intros J. apply M. exact (gi_own _ I s m n J Hs). }
    assert (K : held_up n s wa). { split; [rewrite E5 by congruence; rewrite O by congruence; exact Hs|]. unfold works. rewrite V. split; [split; assumption|]. destruct Hn as [Hn|Hn]; [left; exact Hn|right; congruence]. }
    destruct good; [|exact K]. destruct K as (K1 & (K2 & K3) & K4). destruct (watch_spec m m wa) as (B1 & B2 & B3 & B4 & B5). destruct (B5 s) as (C1 & C2 & C3 & _).
    split; [unfold servers_of; rewrite B1; exact K1|]. unfold works. rewrite C1, C2, B3. split; [split; assumption|]. destruct K4 as [K4|K4]; [left; apply C3, K4|right; exact K4].
  - assert (m <> n) as M. { intros ->. destruct U as [(_ & U)|U]; [exact (U eq_refl)|]. exact (proj1 (held_alive _ _ I Hm) U). }
    destruct (node_stop_spec None m w _ eq_refl) as ((A1 & A2 & A3 & A4 & A5 & A6 & A7 & A8) & F & O & _).
    assert (V : srv (node_stop None m w) s = srv w s). { apply A7. intros J. apply M. exact (gi_own _ I s m n J Hs). }
    split; [rewrite O by congruence; exact Hs|]. unfold works. rewrite V, F. split; [split; assumption|exact Hn].
  - destruct (watch_spec m x w) as (B1 & B2 & B3 & B4 & B5). destruct (B5 s) as (C1 & C2 & C3 & _).
    split; [unfold servers_of; rewrite B1; exact Hs|]. unfold works. rewrite C1, C2, B3. split; [split; assumption|]. destruct Hn as [Hn|Hn]; [left; apply C3, Hn|right; exact Hn].
  - assert (s <> j) as J by congruence. split; [exact Hs|]. unfold works. rewrite srv_set. apply Nat.eqb_neq in J. rewrite J. cbn [andb]. split; [split; assumption|exact Hn].
  - destruct (finalise_all_spec b ts w _ eq_refl) as ((A1 & A2 & A3 & A4 & A5 & A6 & A7 & A8) & O & FF).
    assert (N : ~ In (TNode n) ts). { intros J. destruct Hn as [Hn|Hn]; [|exact (proj2 (F n J) Hn)]. exact (R _ J (reach_obs _ _ _ (reach_run _ _ Wr) Hn)). }
    assert (V : srv (finalise_all b ts w) s = srv w s). { apply A7. intros [K|(m & K & Q)]; [exact (R _ K (reach_run _ _ Wr))|]. assert (m = n) as -> by exact (gi_own _ I s m n Q Hs). exact (N K). }
    split; [rewrite O by exact N; exact Hs|]. unfold works. rewrite V. split; [split; assumption|]. destruct Hn as [Hn|Hn]; [left; exact Hn|right; apply FF; left; exact Hn].
Qed.
Lemma fin_mono w e w1 n : ginv w -> gstep w e w1 -> In n (gw_fin w) -> In n (gw_fin w1).
Proof.
  intros I H F. destruct H as [|m R|m|m ok Hm|m Hm|m x Hm Hx|j Rj|b ts R Q B]; try exact F.
  - destruct (node_stop_spec None m w _ eq_refl) as ((A1 & _) & FF & _). unfold node_start. destruct (start_each m ok (node_stop None m w)) as [wa good] eqn:E.
    pose proof (held_alive _ _ I Hm) as (_ & Lm). rewrite <- A1 in Lm. destruct (start_each_spec m ok _ _ _ Lm E) as (_ & E2 & _).
    destruct good; [destruct (watch_spec m m wa) as (_ & _ & -> & _)|]; congruence.
  - destruct (node_stop_spec None m w _ eq_refl) as (_ & -> & _). exact F.
  - destruct (watch_spec m x w) as (_ & _ & -> & _). exact F.
  - apply (finalise_all_spec b ts w _ eq_refl). left. exact F.
Qed.
Lemma held_up_runs n s w es w1 : gruns w es w1 -> ginv w -> held_up n s w -> (forall e, In e es -> untouched n e \/ In n (gw_fin w)) -> ~ In (EEnd s) es -> held_up n s w1.
Proof.
  intros H. induction H as [|w e w1 es w2 S _ IH]; intros I K U N; [exact K|].
  apply IH; [exact (gstep_inv _ _ _ I S)| | |intros J; apply N; right; exact J].
  - eapply held_up_step; [exact I|exact K|apply U; left; reflexivity|intros ->; apply N; left; reflexivity|exact S].
  - intros e' J. destruct (U e' (or_intror J)) as [Q|Q]; [left; exact Q|right; exact (fin_mono _ _ _ _ I S Q)].
Qed.
Lemma leading_all ok : forallb (fun b => b) ok = true -> leading ok = length ok.
Proof. induction ok as [|[|] ok IH]; cbn [forallb leading length andb]; intros H; [reflexivity|f_equal; exact (IH H)|discriminate]. Qed.
Lemma stopped_empty n w : n < length (gw_nodes w) -> servers_of (node_stop None n w) n = [].
Proof.
  intros L. unfold node_stop. destruct (stop_each None (servers_of w n) w) as [wa e] eqn:E. destruct (stop_each_spec _ _ _ _ _ E) as (_ & N & _ & T & _).
  destruct e; [destruct (T eq_refl) as (x & X & _); discriminate|]. rewrite servers_set, Nat.eqb_refl, N. apply Nat.ltb_lt in L. rewrite L. reflexivity.
Qed.

Lemma L_C106_kept_refuted : forall es w0 n ok w, gruns gempty es w0 -> gstep w0 (EStart n ok) w -> forallb (fun b => b) ok = true ->
  length (servers_of w n) = length ok /\ forall s, In s (servers_of w n) -> forall es' w', gruns w es' w' ->
  Forall (untouched n) es' -> ~ In (EEnd s) es' -> works w' s /\ In n (gs_obs (srv w' s)) /\ In s (servers_of w' n) /\ ~ In n (gw_fin w').
Proof.
  intros es w0 n ok w G S A. pose proof (gruns_inv _ _ _ gempty_inv G) as I0. pose proof (gstep_inv _ _ _ I0 S) as I.
  inversion S as [| | |n0 ok0 Hn| | | |]; subst. clear S. pose proof (held_alive _ _ I0 Hn) as (_ & L0).
  destruct (node_stop_spec None n w0 _ eq_refl) as ((A1 & _) & _). pose proof (stopped_empty n w0 L0) as Z. rewrite <- A1 in L0.
  unfold node_start in *. destruct (start_each n ok (node_stop None n w0)) as [wa good] eqn:E. destruct (start_each_spec n ok _ _ _ L0 E) as (E1 & E2 & E3 & E4 & E5 & E6 & E7).
  rewrite A in E7. subst good. rewrite Z in E4. cbn [app] in E4. rewrite (leading_all _ A) in *. destruct (watch_spec n n wa) as (B1 & B2 & B3 & B4 & B5).
  assert (SV : servers_of (watch n n wa) n = seq (length (gw_srvs (node_stop None n w0))) (length ok)) by (unfold servers_of in *; rewrite B1; exact E4).
  split; [rewrite SV; apply seq_length|]. intros s Hs es' w' G' U NE.
  assert (K : held_up n s (watch n n wa)).
  { split; [exact Hs|]. rewrite SV in Hs. pose proof Hs as Hq. apply in_seq in Hs. destruct (B5 s) as (C1 & C2 & _ & _ & C5). unfold works. rewrite C1, C2, (srv_new _ _ _ _ _ E6 Hs). split; [split; reflexivity|].
    left. apply C5; [rewrite E4; exact Hq|]. rewrite E6, !app_length, repeat_length. lia. }
  assert (NF : forall v es1 v1, gruns v es1 v1 -> ginv v -> held_up n s v -> ~ In n (gw_fin v) -> Forall (untouched n) es1 -> ~ In (EEnd s) es1 -> ~ In n (gw_fin v1)).
  { clear. intros v es1 v1 H. induction H as [|v e v1 es1 v2 S _ IH]; intros I K N U NE; [exact N|].
    pose proof (held_up_step n s v e v1 I K (or_introl (Forall_inv U)) (fun X => NE (or_introl X)) S) as K1.
    apply IH; [exact (gstep_inv _ _ _ I S)|exact K1| |exact (Forall_inv_tail U)|intros J; apply NE; right; exact J].
    destruct K as (Ks & (_ & Kr) & [Ko|Kf]); [|contradiction]. pose proof (gstep_inv _ _ _ I S) as I1.
    intros F. destruct K1 as (_ & (_ & Kr1) & _). apply (gi_fin _ I1 n F). eapply reach_obs; [apply reach_run; exact Kr1|].
    destruct S as [|m R|m|m ok Hm|m Hm|m x Hm Hx|j Rj|b ts R Q B]; try exact Ko.
    - destruct (node_stop_spec None m v _ eq_refl) as ((A1 & A2 & A3 & A4 & _) & _). unfold node_start. destruct (start_each m ok (node_stop None m v)) as [wa good] eqn:E.
      pose proof (held_alive _ _ I Hm) as (_ & Lm). rewrite <- A1 in Lm. destruct (start_each_spec m ok _ _ _ Lm E) as (_ & _ & _ & _ & _ & E6 & _).
      assert (V : gs_obs (srv wa s) = gs_obs (srv v s)). { rewrite (srv_old _ _ _ _ E6) by (rewrite A2; exact (gi_rng _ I _ _ Ks)). apply A4. }
      destruct good; [|congruence]. destruct (watch_spec m m wa) as (_ & _ & _ & _ & B5). apply (B5 s). congruence.
    - destruct (node_stop_spec None m v _ eq_refl) as ((_ & _ & _ & A4 & _) & _). rewrite A4. exact Ko.
    - destruct (watch_spec m x v) as (_ & _ & _ & _ & B5). apply (B5 s). exact Ko.
    - rewrite srv_set. destruct ((s =? j) && (j <? length (gw_srvs v))) eqn:X; [|exact Ko]. apply andb_prop in X. destruct X as (X & _). apply Nat.eqb_eq in X. subst j. exact Ko.
    - destruct (finalise_all_spec b ts v _ eq_refl) as ((_ & _ & _ & A4 & _) & _). rewrite A4. exact Ko. }
  assert (N0 : ~ In n (gw_fin (watch n n wa))) by (apply held_alive; [exact I|rewrite B2, E1; destruct (node_stop_spec None n w0 _ eq_refl) as ((_ & _ & -> & _) & _); exact Hn]).
  pose proof (NF _ _ _ G' I K N0 U NE) as NF'.
  pose proof (held_up_runs n s _ _ _ G' I K (fun e J => or_introl (proj1 (Forall_forall _ _) U e J)) NE) as (Q1 & Q2 & [Q3|Q3]); [|contradiction].
  split; [exact Q2|]. split; [exact Q3|]. split; [exact Q1|exact NF'].
Qed.

Lemma closed_mono X w w1 s : stops X w w1 -> closed w s -> closed w1 s.
Proof.
  intros (_ & _ & _ & _ & A5 & A6 & _) (C1 & C2). split; [destruct (gs_open (srv w1 s)) eqn:Q; [apply A6 in Q; congruence|reflexivity]|destruct (gs_run (srv w1 s)) eqn:Q; [apply A5 in Q; congruence|reflexivity]].
Qed.
Lemma freed b n ts : forall w, ginv w -> sane n w -> (forall t, In t ts -> ~ reach w t) -> (forall m, In (TNode m) ts -> m < length (gw_nodes w)) ->
  (forall x, b = Some x -> ~ In (TSrv x) ts /\ ~ In x (servers_of w n)) -> In (TNode n) ts ->
  forall s, In s (servers_of w n) -> closed (finalise_all b ts w) s.
Proof.
  unfold finalise_all. induction ts as [|t ts IH]; intros w I SA R L B J s Hs; [destruct J|]. cbn [fold_left].
  assert (D : t = TNode n \/ t <> TNode n) by (destruct t as [m|m]; [destruct (Nat.eq_dec m n) as [->|]; [left; reflexivity|right; congruence]|right; discriminate]).
  destruct D as [->|D].
  - destruct (finalise_all_spec b ts (finalise b (TNode n) w) _ eq_refl) as (S & _). eapply closed_mono; [exact S|]. cbn [finalise]. cbv zeta.
    destruct (node_stop_spec b n w _ eq_refl) as ((_ & _ & _ & _ & A5 & _) & _ & _ & _ & C). destruct (C (fun x E => proj2 (B x E)) s Hs) as (C1 & C2).
    split; [exact C1|]. change (gs_run (srv (node_stop b n w) s) = false). destruct (gs_open (srv w s)) eqn:Q; [apply C2; reflexivity|].
    specialize (SA s Hs Q). destruct (gs_run (srv (node_stop b n w) s)) eqn:K; [apply A5 in K; congruence|reflexivity].
  - destruct J as [J|J]; [congruence|]. destruct (finalise_spec b t w _ eq_refl) as (S & O & _).
    assert (BT : forall x, b = Some x -> t <> TSrv x) by (intros x E ->; exact (proj1 (B x E) (or_introl eq_refl))). refine (IH (finalise b t w) _ _ _ _ _ J s _).
    + apply finalise_inv; [exact I|apply R; left; reflexivity|intros m ->; apply L; left; reflexivity|exact BT].
    + apply sane_fin; assumption.
    + intros u H K. apply (stops_reach _ _ _ _ S) in K. exact (R u (or_intror H) K).
    + intros m H. destruct S as (-> & _). apply L. right. exact H.
    + intros x E. rewrite O by exact D. split; [intros H; exact (proj1 (B x E) (or_intror H))|exact (proj2 (B x E))].
    + rewrite O by exact D. exact Hs.
Qed.
Lemma L_C106_freed_partial : forall es w n, gruns gempty es w -> n < length (gw_nodes w) -> ~ In n (gw_fin w) -> ~ reach w (TNode n) ->
  (exists w', gstep w (ECollect None [TNode n]) w') /\
  forall by_ ts w', gstep w (ECollect by_ ts) w' -> In (TNode n) ts -> (forall b, by_ = Some b -> ~ In b (servers_of w n)) ->
  In n (gw_fin w') /\ forall s, In s (servers_of w n) -> closed w' s.
Proof.
  intros es w n G L F R. pose proof (gruns_inv _ _ _ gempty_inv G) as I. split.
  - eexists. apply g_collect; [intros t [<-|[]]; exact R| |discriminate]. intros m [E|[]]. assert (n = m) as <- by congruence. split; [exact L|exact F].
  - intros b ts w' S J B. inversion S as [| | | | | | |b0 ts0 R0 F0 B0]; subst. split; [apply (finalise_all_spec b ts w _ eq_refl); right; exact J|].
    apply freed; [exact I|apply (gi_sane _ I); exact F|exact R0|intros m H; apply F0, H| |exact J].
    intros x E. split; [|exact (B x E)]. intros H. apply (R0 _ H), reach_run, B0, E.
Qed.
Lemma stop_own b l1 l2 : forall w, gs_open (srv w b) = true -> ~ In b l1 -> exists w1, stop_each (Some b) (l1 ++ b :: l2) w = (w1, true) /\ stops (fun j => In j l1 \/ j = b) w w1 /\ gw_nodes w1 = gw_nodes w /\ gw_fin w1 = gw_fin w.
Proof.
  induction l1 as [|s l1 IH]; intros w O N; cbn [app stop_each].
  - destruct (srv_stop (Some b) b w) as [w1 e] eqn:E. destruct (srv_stop_spec _ _ _ _ _ E) as (S & A & F & _ & _ & _ & T). rewrite (T O eq_refl). exists w1. split; [reflexivity|].
    split; [eapply stops_weak; [|exact S]; auto|]. split; assumption.
  - destruct (srv_stop (Some b) s w) as [w1 e] eqn:E. destruct (srv_stop_spec _ _ _ _ _ E) as (S & A & F & _ & T & _ & _).
    destruct e; [destruct N; left; assert (X : Some b = Some s) by (apply T; reflexivity); congruence|].
    destruct (IH w1) as (w2 & E2 & S2 & A2 & F2); [|intros H; apply N; right; exact H|].
    + destruct S as (_ & _ & _ & _ & _ & _ & S7 & _). rewrite S7; [exact O|]. intros ->. apply N. left. reflexivity.
    + exists w2. split; [exact E2|]. split; [|split; congruence]. eapply stops_trans; [eapply stops_weak; [|exact S]; intros j ->; left; left; reflexivity|].
      eapply stops_weak; [|exact S2]. intros j [J|J]; [left; right; exact J|right; exact J].
Qed.
Lemma L_C106_own_refuted : forall es w n l1 b l2 w' s, gruns gempty es w -> servers_of w n = l1 ++ b :: l2 -> gs_open (srv w b) = true -> ~ In b l1 ->
  gstep w (ECollect (Some b) [TNode n]) w' -> In s l2 -> s <> b -> ~ In s l1 -> works w s ->
  In n (gw_fin w') /\ forall es' w'', gruns w' es' w'' -> ~ In (EEnd s) es' -> works w'' s.
Proof.
  intros es w n l1 b l2 w' s G E O Nb S Hs Ns N1 W. pose proof (gruns_inv _ _ _ gempty_inv G) as I. pose proof (gstep_inv _ _ _ I S) as I'.
  inversion S as [| | | | | | |b0 ts0 R0 F0 B0]; subst. cbn [finalise_all fold_left finalise] in *. cbv zeta in *.
  assert (Hf : In n (gw_fin (finalise_all (Some b) [TNode n] w))) by (left; reflexivity).
  split; [exact Hf|]. intros es' w'' G' NE.
  assert (K : held_up n s (finalise_all (Some b) [TNode n] w)).
  { unfold finalise_all. cbn [fold_left finalise]. cbv zeta. unfold node_stop. rewrite E. destruct (stop_own b l1 l2 w O Nb) as (w1 & E1 & (_ & _ & _ & _ & _ & _ & S7 & _) & A & F). rewrite E1.
    split; [unfold servers_of; cbn [gw_nodes]; rewrite A; unfold servers_of in E; rewrite E; apply in_or_app; right; right; exact Hs|]. split; [|right; left; reflexivity].
    unfold works. change (gs_open (srv w1 s) = true /\ gs_run (srv w1 s) = true). rewrite S7; [exact W|]. intros [H|H]; contradiction. }
  destruct (held_up_runs n s _ _ _ G' I' K (fun e _ => or_intror Hf) NE) as (_ & Q & _). exact Q.
Qed.
Lemma leading_fail k r : leading (repeat true k ++ false :: r) = k /\ forallb (fun b => b) (repeat true k ++ false :: r) = false.
Proof. induction k as [|k (IH1 & IH2)]; cbn [repeat app leading forallb]; split; try reflexivity; [congruence|exact IH2]. Qed.
Lemma L_C106_failed : forall es w0 n k r w, gruns gempty es w0 -> gstep w0 (EStart n (repeat true k ++ false :: r)) w ->
  length (servers_of w n) = k /\ (forall s, In s (servers_of w n) -> works w s /\ gs_obs (srv w s) = []) /\
  (exists s w', gs_open (srv w s) = true /\ gs_run (srv w s) = false /\ (forall m, ~ In s (servers_of w m)) /\
     ~ reach w (TSrv s) /\ gstep w (ECollect None [TSrv s]) w' /\ closed w' s) /\
  ((forall s, ~ In n (gs_obs (srv w0 s))) -> forall w', gstep w (EDrop n) w' -> ~ reach w' (TNode n)).
Proof.
  intros es w0 n k r w G S. pose proof (gruns_inv _ _ _ gempty_inv G) as I0. pose proof (gstep_inv _ _ _ I0 S) as I.
  inversion S as [| | |n0 ok0 Hn| | | |]; subst. clear S. pose proof (held_alive _ _ I0 Hn) as (_ & L0).
  destruct (node_stop_spec None n w0 _ eq_refl) as ((A1 & A2 & A3 & A4 & _) & _). pose proof (stopped_empty n w0 L0) as Z. rewrite <- A1 in L0.
  unfold node_start in *. destruct (start_each n (repeat true k ++ false :: r) (node_stop None n w0)) as [wa good] eqn:E. pose proof (start_each_spec n _ _ _ _ L0 E) as (E1 & E2 & E3 & E4 & E5 & E6 & E7).
  destruct (leading_fail k r) as (K1 & K2). rewrite K2 in E7. subst good. rewrite Z in E4. cbn [app] in E4. rewrite K1 in *.
  split; [rewrite E4; apply seq_length|]. split; [|split].
  - intros s Hs. rewrite E4 in Hs. apply in_seq in Hs. unfold works. rewrite (srv_new _ _ _ _ _ E6 Hs). split; [split|]; reflexivity.
  - set (s := length (gw_srvs (node_stop None n w0)) + k).
    assert (V : srv wa s = mkgs true false []). { unfold srv. rewrite E6, app_nth2 by (unfold s; lia). rewrite app_nth2 by (rewrite repeat_length; unfold s; lia). rewrite repeat_length. replace (s - length (gw_srvs (node_stop None n w0)) - k) with 0 by (unfold s; lia). reflexivity. }
    assert (NI : forall m, ~ In s (servers_of wa m)).
    { intros m H. destruct (Nat.eq_dec m n) as [->|M]; [rewrite E4 in H; apply in_seq in H; unfold s in H; lia|]. rewrite E5 in H by exact M. apply (gi_rng _ (stop_inv n w0 I0)) in H. unfold s in H. lia. }
    assert (NR : ~ reach wa (TSrv s)).
    { intros H. inversion H as [|j J| |]; subst; [rewrite V in J; discriminate|]. exact (NI _ ltac:(eassumption)). }
    exists s, (finalise_all None [TSrv s] wa). split; [rewrite V; reflexivity|]. split; [rewrite V; reflexivity|]. split; [exact NI|]. split; [exact NR|]. split.
    + apply g_collect; [intros t [<-|[]]; exact NR|intros m [H|[]]; discriminate|discriminate].
    + unfold finalise_all. cbn [fold_left finalise]. destruct (srv_stop None s wa) as [wb e] eqn:Q. cbn [fst]. destruct (srv_stop_spec _ _ _ _ _ Q) as (_ & _ & _ & O & T & R & _).
      split; [exact O|]. apply R; [destruct e; [discriminate (T eq_refl)|reflexivity]|rewrite V; reflexivity].
  - intros NO w' S. inversion S; subst. intros H. revert H. cut (forall t, reach (mkgw (gw_nodes wa) (gw_srvs wa) (remove Nat.eq_dec n (gw_held wa)) (gw_fin wa)) t -> t <> TNode n).
    + intros C H. exact (C _ H eq_refl).
    + apply reach_sub; cbn [gw_held].
      * intros m H X. assert (m = n) as -> by congruence. exact (remove_In _ _ _ H).
      * discriminate.
      * discriminate.
      * intros s m _ J X. assert (m = n) as -> by congruence. change (In n (gs_obs (srv wa s))) in J. destruct (Nat.lt_ge_cases s (length (gw_srvs (node_stop None n w0)))) as [Q|Q].
        -- rewrite (srv_old _ _ _ _ E6 Q), A4 in J. exact (NO s J).
        -- rewrite (srv_new_obs _ _ _ false _ E6 Q) in J. destruct J.
Qed.
