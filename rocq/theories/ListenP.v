(** Lemmas for C77. *)
From Verif Require Import PyBase ListenM SpecListen.

Lemma lops_add ops ls : Forall (fun o => removes o = false) ops -> exists more, lops_do ops ls = (ls ++ more, Ok tt).
Proof.
  revert ls. induction ops as [|o ops IH]; intros ls F; cbn [lops_do]; [exists []; now rewrite app_nil_r|]. inversion_clear F as [|? ? Ho F'].
  assert (D : exists m, lop_do o ls = Ok (ls ++ m)).
  { destruct o as [l|l|l]; cbn [lop_do]; [eauto| |discriminate]. destruct (existsb _ _); [exists []; now rewrite app_nil_r|eauto]. }
  destruct D as (m & ->). destruct (IH (ls ++ m) F') as (m' & ->). exists (m ++ m'). now rewrite app_assoc.
Qed.
Lemma add_loop fuel cb : calm cb -> never_removes cb -> forall i ls calls ls' calls' r, tell_from fuel cb i ls calls = (ls', calls', Some r) -> calls = firstn i ls -> (i <= length ls)%nat ->
  r = Ok tt /\ calls' = ls' /\ exists more, ls' = ls ++ more.
Proof.
  intros C R. induction fuel as [|f IH]; intros i ls calls ls' calls' r H E L; cbn [tell_from] in H; [discriminate|].
  destruct (nth_error ls i) as [l|] eqn:N.
  - pose proof (C calls l) as C1. pose proof (R calls l) as R1. destruct (cb calls l) as [ops x]. cbn [fst snd] in *. subst x.
    destruct (lops_add ops ls R1) as (m & D). rewrite D in H.
    assert (L1 : (i < length ls)%nat) by (apply nth_error_Some; congruence).
    destruct (IH (S i) (ls ++ m) (calls ++ [l]) ls' calls' r H) as (Q1 & Q2 & m' & Q3).
    + rewrite E. rewrite firstn_app. replace (S i - length ls)%nat with 0%nat by lia. cbn [firstn]. rewrite app_nil_r.
      clear - N. revert i N. induction ls as [|y ls IH]; intros [|i] N; cbn in N |- *; [discriminate..|congruence|]. f_equal. now apply IH.
    + rewrite app_length. lia.
    + split; [exact Q1|]. split; [exact Q2|]. exists (m ++ m'). now rewrite app_assoc.
  - injection H as <- <- <-. apply nth_error_None in N. rewrite firstn_all2 in E by lia. split; [reflexivity|]. split; [exact E|]. exists []. now rewrite app_nil_r.
Qed.
Lemma L_C77_added_partial : forall fuel cb ls ls' calls r, calm cb -> never_removes cb -> tell_all fuel cb ls = (ls', calls, Some r) ->
  r = Ok tt /\ calls = ls' /\ exists more, ls' = ls ++ more.
Proof. intros fuel cb ls ls' calls r C R H. apply (add_loop fuel cb C R 0 ls [] ls' calls r H); [reflexivity|lia]. Qed.
Lemma same_loop cb : calm cb -> no_change cb -> forall ls2 ls1 calls fuel, (length ls2 < fuel)%nat -> tell_from fuel cb (length ls1) (ls1 ++ ls2) calls = (ls1 ++ ls2, calls ++ ls2, Some (Ok tt)).
Proof.
  intros C R. induction ls2 as [|l ls2 IH]; intros ls1 calls fuel L; destruct fuel as [|f]; [cbn in L; lia| |cbn in L; lia|]; cbn [tell_from].
  - rewrite (proj2 (nth_error_None _ _)) by (rewrite app_nil_r; lia). now rewrite !app_nil_r.
  - rewrite nth_error_app2 by lia. rewrite Nat.sub_diag. cbn [nth_error]. pose proof (C calls l) as C1. pose proof (R calls l) as R1. destruct (cb calls l) as [ops x]. cbn [fst snd] in *. subst.
    cbn [lops_do]. specialize (IH (ls1 ++ [l]) (calls ++ [l]) f). rewrite app_length, <- !app_assoc in IH. cbn [app length] in *. replace (S (length ls1)) with (length ls1 + 1)%nat by lia. apply IH. lia.
Qed.
Lemma L_C77_unchanged : forall cb ls fuel, calm cb -> no_change cb -> (length ls < fuel)%nat -> tell_all fuel cb ls = (ls, ls, Some (Ok tt)).
Proof. intros cb ls fuel C R L. exact (same_loop cb C R ls [] [] fuel L). Qed.

Lemma remove_sub l ls ls' : list_remove l ls = Some ls' -> exists a b, ls = a ++ l :: b /\ ls' = a ++ b.
Proof.
  revert ls'. induction ls as [|x ls IH]; intros ls' H; cbn [list_remove] in H; [discriminate|]. destruct (Nat.eqb_spec x l) as [->|N].
  - assert (ls' = ls) by congruence. subst. exists [], ls. auto.
  - destruct (list_remove l ls) as [r|]; [|discriminate]. assert (ls' = x :: r) by congruence. subst. destruct (IH r eq_refl) as (a & b & -> & ->). exists (x :: a), b. auto.
Qed.
Lemma sub_refl l : sublist l l. Proof. induction l; constructor; auto. Qed.
Lemma sub_trans a b c : sublist a b -> sublist b c -> sublist a c.
Proof.
  intros H K. revert a H. induction K as [c|x b c K IH|x b c K IH]; intros a H.
  - inversion H; constructor.
  - inversion H; subst; [constructor|constructor; auto|apply sub_skip; auto].
  - apply sub_skip. auto.
Qed.
Lemma sub_app a b c d : sublist a b -> sublist c d -> sublist (a ++ c) (b ++ d).
Proof.
  intros H K. induction H as [l|x a b H IH|x a b H IH]; cbn [app]; [|now constructor|now constructor].
  induction l as [|y l IH]; [exact K|]. cbn. now constructor.
Qed.
Lemma sub_skipn n l : sublist (skipn n l) l.
Proof. revert n. induction l as [|x l IH]; intros [|n]; cbn [skipn]; try apply sub_refl. constructor. apply IH. Qed.
Lemma sub_remove_skip i ls l ls' : list_remove l ls = Some ls' -> sublist (skipn i ls') (skipn i ls).
Proof.
  intros H. apply remove_sub in H as (a & b & -> & ->). rewrite !skipn_app. apply sub_app; [apply sub_refl|].
  destruct (i - length a)%nat as [|k] eqn:E; cbn [skipn]; [apply sub_skip, sub_refl|].
  clear E. revert k. induction b as [|x b IH]; intros k; [rewrite !skipn_nil; constructor|]. destruct k; cbn [skipn]; [apply sub_skip, sub_refl|apply IH].
Qed.
Lemma lops_sub i ops : forall ls ls' x, Forall (fun o => removes o = true) ops -> lops_do ops ls = (ls', x) -> sublist (skipn i ls') (skipn i ls).
Proof.
  induction ops as [|o ops IH]; intros ls ls' x F H; cbn [lops_do] in H; [injection H as <- <-; apply sub_refl|]. inversion_clear F as [|? ? Ho F'].
  destruct o as [l|l|l]; [discriminate..|]. cbn [lop_do] in H. destruct (list_remove l ls) as [m|] eqn:R; [|injection H as <- <-; apply sub_refl].
  apply (sub_trans _ (skipn i m)); [now apply (IH _ _ x)|exact (sub_remove_skip i ls l m R)].
Qed.
Lemma sub_loop fuel cb : never_adds cb -> forall i ls calls ls' calls' r, tell_from fuel cb i ls calls = (ls', calls', r) -> exists more, calls' = calls ++ more /\ sublist more (skipn i ls).
Proof.
  intros R. induction fuel as [|f IH]; intros i ls calls ls' calls' r H; cbn [tell_from] in H; [injection H as <- <- <-; exists []; rewrite app_nil_r; split; [reflexivity|constructor]|].
  destruct (nth_error ls i) as [l|] eqn:N; [|injection H as <- <- <-; exists []; rewrite app_nil_r; split; [reflexivity|constructor]].
  pose proof (R calls l) as R1. destruct (cb calls l) as [ops x]. cbn [fst] in R1. destruct (lops_do ops ls) as [ls1 y] eqn:D.
  assert (S : skipn i ls = l :: skipn (Datatypes.S i) ls).
  { clear - N. revert i N. induction ls as [|z ls IH]; intros [|i] N; cbn in N; [discriminate..|now injection N as ->|]. cbn [skipn]. now apply IH. }
  assert (One : exists more, calls ++ [l] = calls ++ more /\ sublist more (skipn i ls)) by (exists [l]; split; [reflexivity|rewrite S; constructor; constructor]).
  destruct y as [u|e]; [|injection H as <- <- <-; exact One]. destruct x as [v|e]; [|injection H as <- <- <-; exact One].
  destruct (IH _ _ _ _ _ _ H) as (more & -> & Sb). exists (l :: more). rewrite <- app_assoc. split; [reflexivity|]. rewrite S. constructor.
  exact (sub_trans _ _ _ Sb (lops_sub (Datatypes.S i) ops ls ls1 (Ok u) R1 D)).
Qed.
Lemma L_C77_removed_partial : forall fuel cb ls ls' calls r, never_adds cb -> tell_all fuel cb ls = (ls', calls, r) -> sublist calls ls.
Proof. intros fuel cb ls ls' calls r R H. destruct (sub_loop fuel cb R 0 ls [] ls' calls r H) as (more & -> & S). exact S. Qed.

Lemma L_C77_skipped_refuted : forall a b rest, NoDup (a :: b :: rest) -> exists cb, calm cb /\ never_adds cb /\
  tell_all (S (S (length rest))) cb (a :: b :: rest) = (b :: rest, a :: rest, Some (Ok tt)) /\ ~ In b (a :: rest).
Proof.
  intros a b rest N. exists (fun h l => if Nat.eqb l a then ([LRemove a], Ok tt) else ([], Ok tt)).
  split; [intros h l; now destruct (Nat.eqb l a)|]. split; [intros h l; destruct (Nat.eqb l a); repeat constructor|].
  inversion_clear N as [|? ? Na N']. inversion_clear N' as [|? ? Nb N'']. split.
  - unfold tell_all. cbn [tell_from nth_error]. rewrite Nat.eqb_refl. cbn [lops_do lop_do list_remove]. rewrite Nat.eqb_refl.
    assert (G : forall ls2 ls1 calls fuel, (length ls2 < fuel)%nat -> ~ In a ls2 ->
      tell_from fuel (fun h l => if Nat.eqb l a then ([LRemove a], Ok tt) else ([], Ok tt)) (length ls1) (ls1 ++ ls2) calls = (ls1 ++ ls2, calls ++ ls2, Some (Ok tt))).
    { induction ls2 as [|l ls2 IH]; intros ls1 calls fuel L Na2; destruct fuel as [|f]; [cbn in L; lia| |cbn in L; lia|]; cbn [tell_from].
      - rewrite (proj2 (nth_error_None _ _)) by (rewrite app_nil_r; lia). now rewrite !app_nil_r.
      - rewrite nth_error_app2 by lia. rewrite Nat.sub_diag. cbn [nth_error]. destruct (Nat.eqb_spec l a) as [->|Nl]; [exfalso; apply Na2; now left|].
        cbn [lops_do]. specialize (IH (ls1 ++ [l]) (calls ++ [l]) f). rewrite app_length, <- !app_assoc in IH. cbn [app length] in *. replace (S (length ls1)) with (length ls1 + 1)%nat by lia.
        apply IH; [lia|]. intros X. apply Na2. now right. }
    specialize (G rest [b] [a] (S (length rest))). cbn [length app] in G. apply G; [lia|]. intros X. apply Na. now right.
  - intros [->|X]; [apply Na; now left|contradiction].
Qed.
Lemma L_C77_endless_refuted : forall ls, ls <> [] -> exists cb, calm cb /\ never_removes cb /\ forall fuel, snd (tell_all fuel cb ls) = None.
Proof.
  intros ls N. exists (fun _ l => ([LAdd l], Ok tt)). split; [intros h l; reflexivity|]. split; [intros h l; repeat constructor|].
  intros fuel. unfold tell_all. assert (L : (0 < length ls)%nat) by (destruct ls; [congruence|cbn; lia]).
  generalize dependent 0%nat. clear N. generalize (@nil nat) as calls. revert ls. induction fuel as [|f IH]; intros ls calls i L; [reflexivity|]. cbn [tell_from].
  destruct (nth_error ls i) as [l|] eqn:E; [|apply nth_error_None in E; lia]. cbn [lops_do lop_do]. apply IH. rewrite app_length. cbn. lia.
Qed.

Lemma remove_first l ls : match list_remove l ls with
  | Some r => exists a b, ls = a ++ l :: b /\ r = a ++ b /\ ~ In l a
  | None => ~ In l ls
  end.
Proof.
  induction ls as [|x ls IH]; cbn [list_remove]; [intros []|]. destruct (Nat.eqb_spec x l) as [->|N].
  - exists [], ls. repeat split. intros [].
  - destruct (list_remove l ls) as [r|].
    + destruct IH as (a & b & -> & -> & Na). exists (x :: a), b. repeat split. intros [E|I]; [congruence|contradiction].
    + intros [E|I]; [congruence|contradiction].
Qed.
Lemma lops_changed ops : forall ls ls' r, lops_do ops ls = (ls', r) ->
  (r = Ok tt /\ changed ops ls ls' true) \/ (r = Err ValueError /\ changed ops ls ls' false).
Proof.
  induction ops as [|o ops IH]; intros ls ls' r H; cbn [lops_do] in H.
  - assert (ls' = ls /\ r = Ok tt) as [-> ->] by (split; congruence). left. split; [reflexivity|constructor].
  - destruct o as [l|l|l]; cbn [lop_do] in H.
    + destruct (IH _ _ _ H) as [[A B]|[A B]]; [left|right]; (split; [exact A|now constructor]).
    + destruct (existsb (Nat.eqb l) ls) eqn:E.
      * apply existsb_exists in E as (y & Iy & Ey). apply Nat.eqb_eq in Ey. subst y.
        destruct (IH _ _ _ H) as [[A B]|[A B]]; [left|right]; (split; [exact A|now apply ch_old]).
      * assert (N : ~ In l ls).
        { intros I. assert (existsb (Nat.eqb l) ls = true) by (apply existsb_exists; exists l; split; [exact I|apply Nat.eqb_refl]). congruence. }
        destruct (IH _ _ _ H) as [[A B]|[A B]]; [left|right]; (split; [exact A|now apply ch_new]).
    + pose proof (remove_first l ls) as RF. destruct (list_remove l ls) as [x|].
      * destruct RF as (a & b & -> & -> & Na). destruct (IH _ _ _ H) as [[A B]|[A B]]; [left|right]; (split; [exact A|now apply ch_remove]).
      * assert (ls' = ls /\ r = Err ValueError) as [-> ->] by (split; congruence). right. split; [reflexivity|now constructor].
Qed.
Lemma exact_loop cb ls0 : forall fuel calls ls ls' calls' r, went cb ls0 calls ls -> tell_from fuel cb (length calls) ls calls = (ls', calls', r) ->
  match r with
  | None => went cb ls0 calls' ls' /\ length calls' = (length calls + fuel)%nat
  | Some (Ok _) => went cb ls0 calls' ls' /\ nth_error ls' (length calls') = None
  | Some (Err e) => exists c l ls1, calls' = c ++ [l] /\ went cb ls0 c ls1 /\ nth_error ls1 (length c) = Some l /\
      ((changed (fst (cb c l)) ls1 ls' false /\ e = ValueError) \/ (changed (fst (cb c l)) ls1 ls' true /\ snd (cb c l) = Err e))
  end.
Proof.
  induction fuel as [|f IH]; intros calls ls ls' calls' r W H; cbn [tell_from] in H.
  - assert (ls' = ls /\ calls' = calls /\ r = None) as (-> & -> & ->) by (repeat split; congruence). split; [exact W|lia].
  - destruct (nth_error ls (length calls)) as [l|] eqn:N.
    2:{ assert (ls' = ls /\ calls' = calls /\ r = Some (Ok tt)) as (-> & -> & ->) by (repeat split; congruence). split; [exact W|exact N]. }
    destruct (cb calls l) as [ops x] eqn:Ec. destruct (lops_do ops ls) as [ls1 y] eqn:El.
    destruct (lops_changed ops ls ls1 y El) as [[-> C]|[-> C]].
    + destruct x as [[]|e].
      * replace (S (length calls)) with (length (calls ++ [l])) in H by (rewrite app_length; cbn; lia).
        assert (W1 : went cb ls0 (calls ++ [l]) ls1) by (apply (wt_call cb ls0 calls l ls ls1 W N); rewrite Ec; [exact C|reflexivity]).
        pose proof (IH _ _ _ _ _ W1 H) as Q. destruct r as [[|]|]; [exact Q|exact Q|]. destruct Q as [Q1 Q2]. split; [exact Q1|].
        rewrite Q2, app_length. cbn. lia.
      * assert (ls' = ls1 /\ calls' = calls ++ [l] /\ r = Some (Err e)) as (-> & -> & ->) by (repeat split; congruence).
        exists calls, l, ls. rewrite Ec. cbn [fst snd]. auto 6.
    + assert (ls' = ls1 /\ calls' = calls ++ [l] /\ r = Some (Err ValueError)) as (-> & -> & ->) by (repeat split; congruence).
      exists calls, l, ls. rewrite Ec. cbn [fst snd]. auto 6.
Qed.
Lemma L_C77_exact : forall fuel cb ls ls' calls r, tell_all fuel cb ls = (ls', calls, r) ->
  match r with
  | None => went cb ls calls ls' /\ length calls = fuel
  | Some (Ok _) => went cb ls calls ls' /\ nth_error ls' (length calls) = None
  | Some (Err e) => exists c l ls1, calls = c ++ [l] /\ went cb ls c ls1 /\ nth_error ls1 (length c) = Some l /\
      ((changed (fst (cb c l)) ls1 ls' false /\ e = ValueError) \/ (changed (fst (cb c l)) ls1 ls' true /\ snd (cb c l) = Err e))
  end.
Proof.
  intros fuel cb ls ls' calls r H. exact (exact_loop cb ls fuel [] ls ls' calls r (wt_none cb ls) H).
Qed.
(** A callback that adds a listener and then removes one that is not there. *)
Lemma L_C77_exact_ex : tell_all 9 (fun _ l => if Nat.eqb l 2 then ([LAdd 5; LRemove 8; LAdd 6], Ok tt) else ([], Ok tt)) [1; 2; 3]%nat =
  ([1; 2; 3; 5]%nat, [1; 2]%nat, Some (Err ValueError)).
Proof. reflexivity. Qed.
