(** Lemmas for C76. *)
From Verif Require Import PyBase MsgM ObjM NodeM LocalM CtrlM TidM FoundM SpecFound DictP TidP.
Require Import ZifyBool.

Lemma nth_error_Some' {A} (l : list A) i x : nth_error l i = Some x -> (i < length l)%nat.
Proof. intros H. apply nth_error_Some. congruence. Qed.
Section Run.
Variables (rsv : nat -> string -> res string) (s : fst_) (sched : list nat).
Notation T k := (tab_at rsv s sched k).
Notation P i k := (pc_at rsv s sched i k).

Lemma frun_app a b x : frun rsv x (a ++ b) =
  (fst (frun rsv (fst (frun rsv x a)) b), snd (frun rsv x a) ++ snd (frun rsv (fst (frun rsv x a)) b)).
Proof.
  revert x. induction a as [|i a IH]; intros x; cbn [app frun fst snd]; [now destruct (frun rsv x b)|].
  destruct (fstep rsv x i) as [s1 e1]. rewrite (IH s1). destruct (frun rsv s1 a) as [s2 e2]. cbn [fst snd].
  destruct (frun rsv s2 b) as [s3 e3]. cbn [fst snd]. now rewrite app_assoc.
Qed.
Lemma at_succ k i : nth_error sched k = Some i -> at_step rsv s sched (S k) = fst (fstep rsv (at_step rsv s sched k) i).
Proof.
  intros H. unfold at_step.
  assert (E : firstn (S k) sched = firstn k sched ++ [i]).
  { revert k H. induction sched as [|x l IH]; intros [|k] H; cbn in H |- *; [discriminate..|congruence|]. f_equal. now apply IH. }
  rewrite E, frun_app. cbn [frun fst]. destruct (fstep rsv _ i). reflexivity.
Qed.
Lemma at_end : at_step rsv s sched (length sched) = fst (frun rsv s sched).
Proof. unfold at_step. now rewrite firstn_all. Qed.

(** What a step does to the table and to the threads. *)
Lemma step_tab x i : f_tab (fst (fstep rsv x i)) = f_tab x \/ exists n, nth_error (f_pcs x) i = Some (PStore n) /\ f_tab (fst (fstep rsv x i)) = sset (node_ip n) n (f_tab x).
Proof.
  unfold fstep. destruct (nth_error (f_pcs x) i) as [p|]; [|auto].
  destruct p as [n|n kn|n|a|a u q| |u q acc|r]; try (left; reflexivity); try (right; eauto; fail).
  - destruct (negb _); [auto|]. destruct (nth_error (f_tab x) q) as [[key n]|]; [|auto]. destruct (entry_matches _ _ _ _) as [[]|]; auto.
  - destruct (negb _); [auto|]. destruct (nth_error (f_tab x) q) as [[key n]|]; auto.
Qed.
Lemma step_other x i j : i <> j -> nth_error (f_pcs (fst (fstep rsv x i))) j = nth_error (f_pcs x) j.
Proof.
  intros N. assert (Q : forall p, nth_error (put (f_pcs x) i p) j = nth_error (f_pcs x) j).
  { intros p. rewrite nth_put. destruct (Nat.eqb_spec j i); [congruence|reflexivity]. }
  unfold fstep. destruct (nth_error (f_pcs x) i) as [p|]; [|auto].
  destruct p as [n|n kn|n|a|a u q| |u q acc|r]; cbn [fst f_pcs]; auto.
  - destruct (negb _); [apply Q|]. destruct (nth_error (f_tab x) q) as [[key n]|]; [|apply Q]. destruct (entry_matches _ _ _ _) as [[]|]; apply Q.
  - destruct (negb _); [apply Q|]. destruct (nth_error (f_tab x) q) as [[key n]|]; apply Q.
Qed.
Lemma keys_grow x i : exists l, dkeys (f_tab (fst (fstep rsv x i))) = dkeys (f_tab x) ++ l.
Proof.
  destruct (step_tab x i) as [->|(n & _ & ->)]; [exists []; now rewrite app_nil_r|]. rewrite dkeys_dset.
  destruct (isSome _); [exists []; now rewrite app_nil_r|eauto].
Qed.
Lemma nodup_step x i : NoDup (dkeys (f_tab x)) -> NoDup (dkeys (f_tab (fst (fstep rsv x i)))).
Proof. intros N. destruct (step_tab x i) as [->|(n & _ & ->)]; [exact N|]. apply (nodup_dset String.eqb seqb_eq). exact N. Qed.
Lemma grow k k' : (k <= k')%nat -> exists l, dkeys (T k') = dkeys (T k) ++ l.
Proof.
  intros H. induction H as [|m H IH]; [exists []; now rewrite app_nil_r|]. destruct IH as (l & E).
  destruct (nth_error sched m) as [i|] eqn:N.
  - unfold tab_at. rewrite (at_succ m i N). destruct (keys_grow (at_step rsv s sched m) i) as (l2 & ->). fold (T m). rewrite E. exists (l ++ l2). now rewrite app_assoc.
  - exists l. rewrite <- E. unfold tab_at, at_step. apply nth_error_None in N. now rewrite !firstn_all2 by lia.
Qed.
Lemma nodup_at k : NoDup (dkeys (f_tab s)) -> NoDup (dkeys (T k)).
Proof.
  intros N. induction k as [|k IH]; [exact N|]. destruct (nth_error sched k) as [i|] eqn:E.
  - unfold tab_at. rewrite (at_succ k i E). now apply nodup_step.
  - unfold tab_at, at_step in *. apply nth_error_None in E. rewrite !firstn_all2 in * by lia. exact IH.
Qed.
Lemma tab_len k : length (dkeys (T k)) = length (T k). Proof. apply map_length. Qed.
Lemma len_same b e : (b <= e)%nat -> length (T e) = length (T b) -> same_ips rsv s sched b e.
Proof.
  intros L E k K. destruct (grow b k) as (l1 & E1); [lia|]. destruct (grow k e) as (l2 & E2); [lia|].
  pose proof (f_equal (@length string) E1) as F1. pose proof (f_equal (@length string) E2) as F2. rewrite app_length in F1, F2. rewrite !tab_len in *.
  assert (l1 = []) by (destruct l1; [reflexivity|cbn in F1; lia]). subst l1. now rewrite app_nil_r in E1.
Qed.
Lemma len_diff b e : length (T e) <> length (T b) -> (b <= e)%nat -> ~ same_ips rsv s sched b e.
Proof. intros L H S. apply L. rewrite <- !tab_len. f_equal. apply S. lia. Qed.
Lemma pc_next i k : nth_error sched k = Some i -> P i (S k) = nth_error (f_pcs (fst (fstep rsv (at_step rsv s sched k) i))) i.
Proof. intros H. unfold pc_at. now rewrite (at_succ k i H). Qed.
Lemma pc_other i j k : nth_error sched k = Some j -> j <> i -> P i (S k) = P i k.
Proof. intros H N. unfold pc_at. rewrite (at_succ k j H). now apply step_other. Qed.
Lemma goto_same i (p q : fpc) l : nth_error l i = Some q -> nth_error (put l i p) i = Some p.
Proof. intros H. rewrite nth_put, Nat.eqb_refl. now rewrite H. Qed.

(** A thread that iterates: since when, and what it has seen. *)
Definition since (i b k : nat) : Prop := (b < k)%nat /\ nth_error sched b = Some i /\ P i b = nth_error (f_pcs s) i /\
  forall j, (b < j <= k)%nat -> forall r, P i j <> Some (PDone r).
Lemma since_next i b k : since i b k -> (forall r, P i (S k) <> Some (PDone r)) -> since i b (S k).
Proof.
  intros (L & B & B2 & N) H. split; [lia|]. split; [exact B|]. split; [exact B2|]. intros j J r. destruct (Nat.eq_dec j (S k)) as [->|]; [apply H|apply N; lia].
Qed.
Lemma since_during i b k : since i b k -> (S k <= length sched)%nat -> nth_error sched k = Some i -> (exists r, P i (S k) = Some (PDone r)) -> during rsv s sched i b (S k).
Proof.
  intros (L & B & B2 & N) H E D. split; [lia|]. split; [exact B|]. split; [now replace (S k - 1)%nat with k by lia|]. split; [exact B2|]. split; [|exact D].
  intros j J. apply N. lia.
Qed.
Lemma entry_at pos k key n : NoDup (dkeys (f_tab s)) -> nth_error (T k) pos = Some (key, n) -> sget key (T k) = Some n /\ nth_error (dkeys (T k)) pos = Some key.
Proof.
  intros N E. split; [|unfold dkeys; now rewrite (map_nth_error fst _ _ E)]. apply (in_dget String.eqb seqb_eq); [now apply nodup_at|]. now apply nth_error_In in E.
Qed.
Lemma during_self i b e : during rsv s sched i b e -> T e = T (e - 1) -> forall k, (b <= k <= e)%nat -> (k <= e - 1)%nat \/ T k = T (e - 1).
Proof. intros _ E k K. destruct (Nat.eq_dec k e) as [->|]; [now right|left; lia]. Qed.

(** ** get_node *)
Definition get_inv (i : nat) (a : addr_arg) (k : nat) : Prop :=
  P i k = Some (PGet a) \/
  (exists b used pos, P i k = Some (PGetNext a used pos) /\ since i b k /\ used = length (T b) /\ (pos <= used)%nat /\
     (forall p ip, (p < pos)%nat -> nth_error (dkeys (T b)) p = Some ip -> refused rsv a ip)) \/
  (exists b e r, P i k = Some (PDone r) /\ during rsv s sched i b e /\
    ((r = RChanged /\ ~ same_ips rsv s sched b e) \/
     (exists n ip, r = RGot (Ok (Some n)) /\ denotes rsv a ip /\ stored rsv s sched b e ip n) \/
     (r = RGot (Ok None) /\ same_ips rsv s sched b e /\ forall ip, In ip (dkeys (T b)) -> refused rsv a ip) \/
     (exists x t e', a = GAStr x /\ rsv t x = Err e' /\ r = RGot (Err e')))).
Lemma keys_prefix b k p : (b <= k)%nat -> (p < length (T b))%nat -> nth_error (dkeys (T k)) p = nth_error (dkeys (T b)) p.
Proof. intros H L. destruct (grow b k H) as (l & ->). apply nth_error_app1. now rewrite tab_len. Qed.
Lemma get_step i a k : NoDup (dkeys (f_tab s)) -> nth_error (f_pcs s) i = Some (PGet a) -> (k < length sched)%nat -> get_inv i a k -> get_inv i a (S k).
Proof.
  intros N C L I. destruct (nth_error sched k) as [j|] eqn:J; [|apply nth_error_None in J; lia].
  destruct (Nat.eq_dec j i) as [->|Nj].
  2:{ pose proof (pc_other i j k J Nj) as E. destruct I as [I|[(b & used & pos & I & S & R)|(b & e & r & I & R)]]; [left|right; left|right; right].
      - congruence.
      - exists b, used, pos. rewrite E. split; [exact I|]. split; [|exact R]. apply since_next; [exact S|]. intros r. rewrite E, I. discriminate.
      - exists b, e, r. rewrite E. auto. }
  pose proof (pc_next i k J) as E. set (x := at_step rsv s sched k) in *.
  destruct I as [I|[(b & used & pos & I & S & U & Lp & R)|(b & e & r & I & R)]]; unfold pc_at in I; fold x in I.
  - right; left. unfold fstep in E. rewrite I in E. cbn [fst f_pcs] in E. rewrite (goto_same _ _ _ _ I) in E. exists k, (length (f_tab x)), 0%nat. split; [exact E|].
    split; [|split; [reflexivity|split; [lia|intros; lia]]]. split; [lia|]. split; [exact J|]. split; [unfold pc_at; fold x; congruence|].
    intros j Hj r. replace j with (Datatypes.S k) by lia. rewrite E. discriminate.
  - unfold fstep in E. rewrite I in E. assert (Tk : T k = f_tab x) by reflexivity.
    assert (B : (b <= k)%nat) by (destruct S; lia).
    destruct (Nat.eqb_spec (length (f_tab x)) used) as [Eu|Eu]; cbn [negb] in E.
    2:{ cbn [fst f_pcs] in E. rewrite (goto_same _ _ _ _ I) in E. right; right. exists b, (Datatypes.S k), RChanged. split; [exact E|].
        split; [apply since_during; eauto|]. left. split; [reflexivity|]. intros X. apply (len_diff b k); [congruence|exact B|]. intros m Hm. apply X. lia. }
    assert (Same : same_ips rsv s sched b k) by (apply len_same; [exact B|congruence]).
    assert (Own : T (Datatypes.S k) = T k).
    { unfold tab_at. rewrite (at_succ k i J). fold x. destruct (step_tab x i) as [->|(n & X & _)]; [reflexivity|congruence]. }
    destruct (nth_error (f_tab x) pos) as [[key n]|] eqn:En.
    + destruct (entry_at pos k key n N En) as (G & K). rewrite keys_prefix with (b := b) in K; [|exact B|apply nth_error_Some' in En; lia].
      destruct (entry_matches rsv (f_clock x) a key) as [[]|e'] eqn:M; cbn [fst f_pcs] in E; rewrite (goto_same _ _ _ _ I) in E.
      * right; right. exists b, (Datatypes.S k), (RGot (Ok (Some n))). split; [exact E|]. split; [apply since_during; eauto|]. right; left. exists n, key. split; [reflexivity|].
        split; [|exists k; split; [lia|exact G]]. unfold entry_matches in M. destruct a as [h|h|]; cbn [denotes].
        -- destruct (String.eqb_spec h key); [now left|]. right. exists (f_clock x). destruct (rsv (f_clock x) h) as [y|]; cbn [bindr] in M; [|discriminate]. f_equal. apply String.eqb_eq. congruence.
        -- apply String.eqb_eq. congruence.
        -- discriminate.
      * right; left. exists b, used, (Datatypes.S pos). split; [exact E|]. split; [apply since_next; [exact S|intros r; rewrite E; discriminate]|]. split; [exact U|].
        split; [apply nth_error_Some' in En; lia|]. intros p ip Hp Hn. destruct (Nat.eq_dec p pos) as [->|]; [|apply (R p ip); [lia|exact Hn]].
        assert (ip = key) by congruence. subst ip. unfold entry_matches in M. destruct a as [h|h|]; cbn [refused]; [|apply String.eqb_neq; congruence|exact Logic.I].
        destruct (String.eqb_spec h key); [discriminate|]. split; [assumption|]. exists (f_clock x). destruct (rsv (f_clock x) h) as [y|]; cbn [bindr] in M; [|discriminate].
        exists y. split; [reflexivity|]. apply String.eqb_neq. congruence.
      * right; right. exists b, (Datatypes.S k), (RGot (Err e')). split; [exact E|]. split; [apply since_during; eauto|]. right; right; right. unfold entry_matches in M.
        destruct a as [h|h|]; [|discriminate..]. destruct (String.eqb h key); [discriminate|]. destruct (rsv (f_clock x) h) as [y|e2] eqn:Er; cbn [bindr] in M; [discriminate|].
        exists h, (f_clock x), e'. repeat split; congruence.
    + cbn [fst f_pcs] in E. rewrite (goto_same _ _ _ _ I) in E. right; right. exists b, (Datatypes.S k), (RGot (Ok None)). split; [exact E|]. split; [apply since_during; eauto|].
      right; right; left. split; [reflexivity|]. split.
      * intros m Hm. destruct (Nat.eq_dec m (Datatypes.S k)) as [->|]; [rewrite Own|]; apply Same; lia.
      * intros ip Hip. apply nth_error_None in En. apply In_nth_error in Hip as (p & Hp). apply (R p ip); [|exact Hp].
        apply nth_error_Some' in Hp. rewrite tab_len in Hp. lia.
  - unfold fstep in E. rewrite I in E. cbn [fst f_pcs] in E. rewrite (goto_same _ _ _ _ I) in E. right; right. exists b, e, r. auto.
Qed.

(** ** nodes *)
Definition nodes_inv (i : nat) (k : nat) : Prop :=
  P i k = Some PNodes \/
  (exists b used acc, P i k = Some (PNodesNext used (length acc) acc) /\ since i b k /\ used = length (T b) /\
     Forall2 (fun ip n => stored rsv s sched b k ip n) (firstn (length acc) (dkeys (T b))) acc) \/
  (exists b e r, P i k = Some (PDone r) /\ during rsv s sched i b e /\
    ((r = RChanged /\ ~ same_ips rsv s sched b e) \/
     (exists l, r = RNodes l /\ same_ips rsv s sched b e /\ Forall2 (fun ip n => stored rsv s sched b e ip n) (dkeys (T b)) l))).
Lemma stored_later b k k' ip n : (k <= k')%nat -> stored rsv s sched b k ip n -> stored rsv s sched b k' ip n.
Proof. intros H (m & M & E). exists m. split; [lia|exact E]. Qed.
Lemma Forall2_mono {A B} (R R' : A -> B -> Prop) l l' : (forall a b, R a b -> R' a b) -> Forall2 R l l' -> Forall2 R' l l'.
Proof. intros H F. induction F; constructor; auto. Qed.
Lemma firstn_snoc {A} (l : list A) n x : nth_error l n = Some x -> firstn (S n) l = firstn n l ++ [x].
Proof. revert n. induction l as [|y l IH]; intros [|n] H; cbn in H |- *; [discriminate..|congruence|]. f_equal. now apply IH. Qed.
Lemma nodes_step i k : NoDup (dkeys (f_tab s)) -> nth_error (f_pcs s) i = Some PNodes -> (k < length sched)%nat -> nodes_inv i k -> nodes_inv i (S k).
Proof.
  intros N C L I. destruct (nth_error sched k) as [j|] eqn:J; [|apply nth_error_None in J; lia].
  destruct (Nat.eq_dec j i) as [->|Nj].
  2:{ pose proof (pc_other i j k J Nj) as E. destruct I as [I|[(b & used & acc & I & S & U & R)|(b & e & r & I & R)]]; [left|right; left|right; right].
      - congruence.
      - exists b, used, acc. rewrite E. split; [exact I|]. split; [|split; [exact U|]].
        + apply since_next; [exact S|]. intros r. rewrite E, I. discriminate.
        + apply (Forall2_mono _ _ _ _ (fun ip n => stored_later b k (Datatypes.S k) ip n ltac:(lia)) R).
      - exists b, e, r. rewrite E. auto. }
  pose proof (pc_next i k J) as E. set (x := at_step rsv s sched k) in *.
  destruct I as [I|[(b & used & acc & I & S & U & R)|(b & e & r & I & R)]]; unfold pc_at in I; fold x in I.
  - right; left. unfold fstep in E. rewrite I in E. cbn [fst f_pcs] in E. rewrite (goto_same _ _ _ _ I) in E. exists k, (length (f_tab x)), []. split; [exact E|].
    split; [|split; [reflexivity|constructor]]. split; [lia|]. split; [exact J|]. split; [unfold pc_at; fold x; congruence|].
    intros j Hj r. replace j with (Datatypes.S k) by lia. rewrite E. discriminate.
  - unfold fstep in E. rewrite I in E. assert (Tk : T k = f_tab x) by reflexivity.
    assert (B : (b <= k)%nat) by (destruct S; lia).
    destruct (Nat.eqb_spec (length (f_tab x)) used) as [Eu|Eu]; cbn [negb] in E.
    2:{ cbn [fst f_pcs] in E. rewrite (goto_same _ _ _ _ I) in E. right; right. exists b, (Datatypes.S k), RChanged. split; [exact E|].
        split; [apply since_during; eauto|]. left. split; [reflexivity|]. intros X. apply (len_diff b k); [congruence|exact B|]. intros m Hm. apply X. lia. }
    assert (Same : same_ips rsv s sched b k) by (apply len_same; [exact B|congruence]).
    assert (Own : T (Datatypes.S k) = T k).
    { unfold tab_at. rewrite (at_succ k i J). fold x. destruct (step_tab x i) as [->|(n & X & _)]; [reflexivity|congruence]. }
    destruct (nth_error (f_tab x) (length acc)) as [[key n]|] eqn:En; cbn [fst f_pcs] in E; rewrite (goto_same _ _ _ _ I) in E.
    + destruct (entry_at (length acc) k key n N En) as (G & K). rewrite keys_prefix with (b := b) in K; [|exact B|apply nth_error_Some' in En; lia].
      right; left. exists b, used, (acc ++ [n]). rewrite app_length. cbn [length]. rewrite Nat.add_1_r. split; [exact E|].
      split; [apply since_next; [exact S|intros r; rewrite E; discriminate]|]. split; [exact U|]. rewrite (firstn_snoc _ _ _ K).
      apply Forall2_app; [apply (Forall2_mono _ _ _ _ (fun ip n => stored_later b k (Datatypes.S k) ip n ltac:(lia)) R)|].
      constructor; [|constructor]. exists k. split; [lia|exact G].
    + right; right. exists b, (Datatypes.S k), (RNodes acc). split; [exact E|]. split; [apply since_during; eauto|].
      right. exists acc. split; [reflexivity|]. split.
      * intros m Hm. destruct (Nat.eq_dec m (Datatypes.S k)) as [->|]; [rewrite Own|]; apply Same; lia.
      * apply nth_error_None in En. rewrite firstn_all2 in R by (rewrite tab_len; lia). apply (Forall2_mono _ _ _ _ (fun ip n => stored_later b k (Datatypes.S k) ip n ltac:(lia)) R).
  - unfold fstep in E. rewrite I in E. cbn [fst f_pcs] in E. rewrite (goto_same _ _ _ _ I) in E. right; right. exists b, e, r. auto.
Qed.

(** ** The table *)
Lemma prog_step i n k : nth_error (f_pcs s) i = Some (PAdd n) -> (k < length sched)%nat ->
  let Q k := match P i k with
             | Some (PAdd m) | Some (PTell m _) | Some (PStore m) => m = n
             | Some (PDone RAdded) => In (node_ip n) (dkeys (T k))
             | _ => False end in
  Q k -> Q (S k).
Proof.
  intros C L Q I. destruct (nth_error sched k) as [j|] eqn:J; [|apply nth_error_None in J; lia]. unfold Q in *.
  assert (G : In (node_ip n) (dkeys (T k)) -> In (node_ip n) (dkeys (T (S k)))).
  { intros H. destruct (grow k (S k)) as (l & ->); [lia|]. apply in_or_app. now left. }
  destruct (Nat.eq_dec j i) as [->|Nj].
  - rewrite (pc_next i k J). unfold pc_at in I. set (x := at_step rsv s sched k) in *. unfold fstep. destruct (nth_error (f_pcs x) i) as [p|] eqn:Ep; [|contradiction].
    destruct p as [m|m kn|m|a|a u q| |u q acc|r]; cbn [fst f_pcs]; try contradiction; rewrite ?(goto_same _ _ _ _ Ep); try exact I.
    + subst m. unfold tab_at. rewrite (at_succ k i J). fold x. unfold fstep. rewrite Ep. cbn [fst f_tab]. apply (dset_in_keys String.eqb seqb_eq). now left.
    + destruct r; try contradiction. now apply G.
  - rewrite (pc_other i j k J Nj). destruct (P i k) as [p|]; [|exact I]. destruct p as [m|m kn|m|a|a u q| |u q acc|r]; try exact I. destruct r; try exact I. now apply G.
Qed.
End Run.

Lemma run_upto {A} (sched : list A) (Q : nat -> Prop) : Q 0%nat -> (forall k, (k < length sched)%nat -> Q k -> Q (S k)) -> Q (length sched).
Proof.
  intros H0 HS. assert (G : forall k, (k <= length sched)%nat -> Q k).
  { induction k as [|k IH]; intros L; [exact H0|]. apply HS; [lia|]. apply IH. lia. }
  apply G. lia.
Qed.
Lemma L_C76_get_partial : forall rsv s sched i a r, NoDup (dkeys (f_tab s)) -> nth_error (f_pcs s) i = Some (PGet a) ->
  nth_error (f_pcs (fst (frun rsv s sched))) i = Some (PDone r) ->
  exists b e, during rsv s sched i b e /\
  ((r = RChanged /\ ~ same_ips rsv s sched b e) \/
   (exists n ip, r = RGot (Ok (Some n)) /\ denotes rsv a ip /\ stored rsv s sched b e ip n) \/
   (r = RGot (Ok None) /\ same_ips rsv s sched b e /\ forall ip, In ip (dkeys (tab_at rsv s sched b)) -> refused rsv a ip) \/
   (exists x t e', a = GAStr x /\ rsv t x = Err e' /\ r = RGot (Err e'))).
Proof.
  intros rsv s sched i a r N C D. pose proof (run_upto sched (get_inv rsv s sched i a)) as H.
  destruct H as [I|[(b & u & p & I & _)|(b & e & r' & I & R)]].
  - left. exact C.
  - intros k L. now apply get_step.
  - unfold pc_at in I. rewrite at_end in I. congruence.
  - unfold pc_at in I. rewrite at_end in I. congruence.
  - unfold pc_at in I. rewrite at_end in I. assert (r' = r) by congruence. subst r'. exists b, e. exact R.
Qed.
Lemma L_C76_nodes_partial : forall rsv s sched i r, NoDup (dkeys (f_tab s)) -> nth_error (f_pcs s) i = Some PNodes ->
  nth_error (f_pcs (fst (frun rsv s sched))) i = Some (PDone r) ->
  exists b e, during rsv s sched i b e /\
  ((r = RChanged /\ ~ same_ips rsv s sched b e) \/
   (exists l, r = RNodes l /\ same_ips rsv s sched b e /\ Forall2 (stored rsv s sched b e) (dkeys (tab_at rsv s sched b)) l)).
Proof.
  intros rsv s sched i r N C D. pose proof (run_upto sched (nodes_inv rsv s sched i)) as H.
  destruct H as [I|[(b & u & p & I & _)|(b & e & r' & I & R)]].
  - left. exact C.
  - intros k L. now apply nodes_step.
  - unfold pc_at in I. rewrite at_end in I. congruence.
  - unfold pc_at in I. rewrite at_end in I. congruence.
  - unfold pc_at in I. rewrite at_end in I. assert (r' = r) by congruence. subst r'. exists b, e. exact R.
Qed.

(** ** The table *)
Definition holds_node (p : fpc) (n : node) : Prop := p = PAdd n \/ p = PStore n \/ exists k, p = PTell n k.
Definition tinv (s x : fst_) : Prop :=
  (forall j p n, nth_error (f_pcs x) j = Some p -> holds_node p n -> nth_error (f_pcs s) j = Some (PAdd n)) /\
  (forall ip n, sget ip (f_tab x) = Some n -> sget ip (f_tab s) = Some n \/ exists j, nth_error (f_pcs s) j = Some (PAdd n) /\ node_ip n = ip).
Lemma tinv_step rsv s x i : tinv s x -> tinv s (fst (fstep rsv x i)).
Proof.
  intros (A & B). split.
  - intros j p n H K. destruct (Nat.eq_dec i j) as [->|Ne]; [|rewrite (step_other rsv x i j Ne) in H; exact (A j p n H K)].
    unfold fstep in H. destruct (nth_error (f_pcs x) j) as [q|] eqn:Eq; [|cbn [fst] in H; congruence].
    assert (X : forall p', nth_error (put (f_pcs x) j p') j = Some p -> p' = p) by (intros p' E; rewrite (goto_same j p' q _ Eq) in E; congruence).
    destruct q as [m|m kn|m|a|a u q| |u q acc|r].
    + apply X in H. subst p. assert (m = n) by (destruct K as [K|[K|(k0 & K)]]; congruence). subst m. apply (A j _ n Eq). now left.
    + apply X in H. subst p. assert (m = n) by (destruct K as [K|[K|(k0 & K)]]; congruence). subst m. apply (A j _ n Eq). right; right; eauto.
    + apply X in H. subst p. exfalso. destruct K as [K|[K|(k0 & K)]]; discriminate.
    + apply X in H. subst p. exfalso. destruct K as [K|[K|(k0 & K)]]; discriminate.
    + exfalso. assert (forall r, p <> PDone r) by (intros r ->; destruct K as [K|[K|(k0 & K)]]; discriminate). assert (forall u q, p <> PGetNext a u q) by (intros u1 q1 ->; destruct K as [K|[K|(k0 & K)]]; discriminate).
      destruct (negb _); [apply X in H; congruence|]. destruct (nth_error (f_tab x) q) as [[key m]|]; [destruct (entry_matches _ _ _ _) as [[]|]|]; apply X in H; congruence.
    + apply X in H. subst p. exfalso. destruct K as [K|[K|(k0 & K)]]; discriminate.
    + exfalso. assert (forall r, p <> PDone r) by (intros r ->; destruct K as [K|[K|(k0 & K)]]; discriminate). assert (forall u q a, p <> PNodesNext u q a) by (intros u1 q1 a1 ->; destruct K as [K|[K|(k0 & K)]]; discriminate).
      destruct (negb _); [apply X in H; congruence|]. destruct (nth_error (f_tab x) q) as [[key m]|]; apply X in H; congruence.
    + apply X in H. subst p. exfalso. destruct K as [K|[K|(k0 & K)]]; discriminate.
  - intros ip n H. destruct (step_tab rsv x i) as [E|(m & Em & E)]; rewrite E in H; [exact (B ip n H)|].
    rewrite (dget_dset String.eqb seqb_eq) in H. destruct (String.eqb_spec ip (node_ip m)) as [->|Ne]; [|exact (B ip n H)].
    assert (m = n) by congruence. subst m. right. exists i. split; [|reflexivity]. apply (A i _ n Em). right; now left.
Qed.
Lemma run_snoc rsv s l i : fst (frun rsv s (l ++ [i])) = fst (fstep rsv (fst (frun rsv s l)) i) /\ snd (frun rsv s (l ++ [i])) = snd (frun rsv s l) ++ snd (fstep rsv (fst (frun rsv s l)) i).
Proof. rewrite frun_app. cbn [frun fst snd]. destruct (fstep rsv _ i) as [x e]. cbn. now rewrite app_nil_r. Qed.
Lemma told_app i a b : told i (a ++ b) = told i a ++ told i b. Proof. apply flat_map_app. Qed.
Definition said (i : nat) (n : node) (x : fst_ * list fev) : Prop :=
  match nth_error (f_pcs (fst x)) i with
  | Some (PAdd m) | Some (PTell m _) => m = n /\ told i (snd x) = []
  | Some (PStore m) => m = n /\ exists k, told i (snd x) = [(n, k)]
  | Some (PDone RAdded) => exists k, told i (snd x) = [(n, k)]
  | _ => False
  end.
Lemma told_other rsv x i j : i <> j -> told j (snd (fstep rsv x i)) = [].
Proof.
  intros N. unfold fstep. destruct (nth_error (f_pcs x) i) as [p|]; [|reflexivity]. destruct p as [m|m kn|m|a|a u q| |u q acc|r]; try reflexivity.
  - cbn. destruct (Nat.eqb_spec i j); [congruence|reflexivity].
  - destruct (negb _); [reflexivity|]. destruct (nth_error (f_tab x) q) as [[key m]|]; [|reflexivity]. destruct (entry_matches _ _ _ _) as [[]|]; reflexivity.
  - destruct (negb _); [reflexivity|]. destruct (nth_error (f_tab x) q) as [[key m]|]; reflexivity.
Qed.
Lemma said_step rsv i n s l j : said i n (frun rsv s l) -> said i n (frun rsv s (l ++ [j])).
Proof.
  unfold said. destruct (run_snoc rsv s l j) as (-> & ->). rewrite told_app. set (x := fst (frun rsv s l)) in *. set (tl := told i (snd (frun rsv s l))) in *.
  destruct (Nat.eq_dec j i) as [->|Ne]; [|rewrite (step_other rsv x j i Ne), (told_other rsv x j i Ne), app_nil_r; auto].
  unfold fstep. destruct (nth_error (f_pcs x) i) as [p|] eqn:Ep; [|intros []].
  destruct p as [m|m kn|m|a|a u q| |u q acc|r]; cbn [fst snd f_pcs]; try (intros F; contradiction F); rewrite ?(goto_same _ _ _ _ Ep), ?app_nil_r; auto.
  - intros (-> & ->). split; [reflexivity|]. cbn. rewrite Nat.eqb_refl. exists kn. reflexivity.
  - intros (-> & H). exact H.
Qed.
Lemma L_C76_table : forall rsv s sched, fresh s ->
  let x := frun rsv s sched in
  (* nothing gets lost *)
  (forall ip, In ip (dkeys (f_tab s)) -> In ip (dkeys (f_tab (fst x)))) /\
  (forall i n r, nth_error (f_pcs s) i = Some (PAdd n) -> nth_error (f_pcs (fst x)) i = Some (PDone r) ->
     r = RAdded /\ In (node_ip n) (dkeys (f_tab (fst x))) /\ exists k, told i (snd x) = [(n, k)]) /\
  (* nothing else gets in, and no address twice *)
  (forall ip n, sget ip (f_tab (fst x)) = Some n ->
     sget ip (f_tab s) = Some n \/ exists i, nth_error (f_pcs s) i = Some (PAdd n) /\ node_ip n = ip) /\
  NoDup (dkeys (f_tab (fst x))).
Proof.
  intros rsv s sched (N & F) x. split; [|split; [|split]].
  - intros ip H. destruct (grow rsv s sched 0 (length sched)) as (l & E); [lia|]. unfold tab_at in E. rewrite at_end in E. fold x in E. rewrite E. apply in_or_app. now left.
  - intros i n r C D.
    assert (S : said i n x).
    { unfold x. clear x D. induction sched as [|j l IH] using rev_ind; [unfold said; cbn [frun fst snd]; rewrite C; split; reflexivity|]. now apply said_step. }
    unfold said in S. rewrite D in S. destruct r; try contradiction. split; [reflexivity|]. split; [|exact S].
    set (Q := fun k => match pc_at rsv s sched i k with
             | Some (PAdd m) | Some (PTell m _) | Some (PStore m) => m = n
             | Some (PDone RAdded) => In (node_ip n) (dkeys (tab_at rsv s sched k))
             | _ => False end).
    assert (H : Q (length sched)).
    { apply run_upto.
      - unfold Q, pc_at. cbn. rewrite C. reflexivity.
      - intros k L. exact (prog_step rsv s sched i n k C L). }
    unfold Q, pc_at, tab_at in H. rewrite at_end in H. fold x in H. rewrite D in H. exact H.
  - assert (TI : tinv s (fst x)).
    { unfold x. clear x. induction sched as [|j l IH] using rev_ind.
      - split; [|auto]. intros j p n Hp K. cbn [frun fst] in Hp. rewrite Hp. f_equal. apply nth_error_In in Hp. rewrite Forall_forall in F. specialize (F p Hp).
        destruct K as [K|[K|(k & K)]]; [exact K|subst p; destruct F..].
      - rewrite (proj1 (run_snoc rsv s l j)). now apply tinv_step. }
    apply TI.
  - pose proof (nodup_at rsv s sched (length sched) N) as H. unfold tab_at in H. now rewrite at_end in H.
Qed.

(** ** Refutation *)
Lemma L_C76_changed_refuted : forall rsv t n ip, NoDup (dkeys t) -> In ip (dkeys t) -> ~ In (node_ip n) (dkeys t) ->
  let s := mkfst t [PGet (GATup ip); PNodes; PAdd n] 0 in
  let x := fst (frun rsv s [0; 1; 2; 2; 2; 0; 1]%nat) in
  nth_error (f_pcs x) 0 = Some (PDone RChanged) /\ nth_error (f_pcs x) 1 = Some (PDone RChanged) /\
  forall k, In ip (dkeys (tab_at rsv s [0; 1; 2; 2; 2; 0; 1]%nat k)).
Proof.
  intros rsv t n ip N I NI s x.
  assert (G : sget (node_ip n) t = None) by now apply (dget_none String.eqb seqb_eq).
  assert (L : length (sset (node_ip n) n t) = S (length t)).
  { rewrite <- (map_length fst (sset _ _ _)), <- (map_length fst t). fold (dkeys (sset (node_ip n) n t)). rewrite dkeys_dset, G. cbn [isSome]. rewrite app_length. unfold dkeys. cbn. lia. }
  split; [|split].
  - unfold x, s. cbn. rewrite L. destruct (Nat.eqb_spec (S (length t)) (length t)); [lia|]. cbn. rewrite L. destruct (Nat.eqb_spec (S (length t)) (length t)); [lia|]. reflexivity.
  - unfold x, s. cbn. rewrite L. destruct (Nat.eqb_spec (S (length t)) (length t)); [lia|]. cbn. rewrite L. destruct (Nat.eqb_spec (S (length t)) (length t)); [lia|]. reflexivity.
  - intros k. destruct (grow rsv s [0; 1; 2; 2; 2; 0; 1]%nat 0 k) as (l & E); [lia|]. rewrite E. apply in_or_app. left. exact I.
Qed.

(** ** The sequential model *)
Lemma seq_loop w tr a i : forall d t pcs c0 used pos, nth_error pcs i = Some (PGetNext a used pos) -> used = length t -> skipn pos t = d -> (pos <= length t)%nat ->
  exists m, nth_error (f_pcs (fst (frun (fun _ => os_resolve w tr) (mkfst t pcs c0) (repeat i m)))) i = Some (PDone (RGot (get_node_loop w tr d a))).
Proof.
  induction d as [|[key n] d IH]; intros t pcs c0 used pos E U S L.
  - exists 1%nat. cbn [repeat frun]. unfold fstep. cbn [f_pcs f_tab]. rewrite E, U, Nat.eqb_refl. cbn [negb].
    assert (Z : nth_error t pos = None). { apply nth_error_None. apply (f_equal (@length (string * node))) in S. rewrite skipn_length in S. cbn in S. lia. }
    rewrite Z. cbn [frun fst f_pcs]. exact (goto_same i _ _ pcs E).
  - assert (Z : nth_error t pos = Some (key, n)).
    { rewrite <- (firstn_skipn pos t), S. rewrite nth_error_app2 by (rewrite firstn_length; lia). rewrite firstn_length, Nat.min_l by lia. now rewrite Nat.sub_diag. }
    assert (S' : skipn (Datatypes.S pos) t = d).
    { replace (Datatypes.S pos) with (1 + pos)%nat by lia. change (1 + pos)%nat with (Nat.add 1 pos). rewrite <- (firstn_skipn pos t) at 1. rewrite S. rewrite skipn_app, firstn_length, Nat.min_l by lia.
      rewrite skipn_all2 by (rewrite firstn_length; lia). replace (1 + pos - pos)%nat with 1%nat by lia. reflexivity. }
    assert (L' : (Datatypes.S pos <= length t)%nat) by (apply nth_error_Some' in Z; lia).
    destruct (entry_matches (fun _ => os_resolve w tr) c0 a key) as [[]|e] eqn:M.
    + exists 1%nat. cbn [repeat frun]. unfold fstep. cbn [f_pcs f_tab f_clock]. rewrite E, U, Nat.eqb_refl. cbn [negb]. rewrite Z, M. cbn [frun fst f_pcs]. rewrite (goto_same i _ _ pcs E). do 3 f_equal.
      unfold entry_matches in M. cbn [get_node_loop]. destruct a as [h|h|]; [|assert (X : String.eqb h key = true) by congruence; now rewrite X|discriminate].
      destruct (String.eqb h key); [reflexivity|]. destruct (os_resolve w tr h) as [y|]; cbn [bindr] in *; [|discriminate]. assert (X : String.eqb y key = true) by congruence. now rewrite X.
    + destruct (IH t (put pcs i (PGetNext a used (Datatypes.S pos))) (Datatypes.S c0) used (Datatypes.S pos) (goto_same i _ _ pcs E) U S' L') as (m & H). exists (Datatypes.S m). cbn [repeat frun].
      unfold fstep at 1. cbn [f_pcs f_tab f_clock]. rewrite E, U, Nat.eqb_refl. cbn [negb]. rewrite Z, M, <- U. destruct (frun _ _ (repeat i m)) as [x ev]. cbn [fst] in H |- *. rewrite H. do 3 f_equal.
      unfold entry_matches in M. cbn [get_node_loop]. destruct a as [h|h|]; [|assert (X : String.eqb h key = false) by congruence; now rewrite X|reflexivity].
      destruct (String.eqb h key); [discriminate|]. destruct (os_resolve w tr h) as [y|]; cbn [bindr] in *; [|discriminate]. assert (X : String.eqb y key = false) by congruence. now rewrite X.
    + exists 1%nat. cbn [repeat frun]. unfold fstep. cbn [f_pcs f_tab f_clock]. rewrite E, U, Nat.eqb_refl. cbn [negb]. rewrite Z, M. cbn [frun fst f_pcs]. rewrite (goto_same i _ _ pcs E). do 3 f_equal.
      unfold entry_matches in M. cbn [get_node_loop]. destruct a as [h|h|]; [|discriminate..]. destruct (String.eqb h key); [discriminate|]. destruct (os_resolve w tr h) as [y|]; cbn [bindr] in *; [discriminate|]. congruence.
Qed.
Lemma L_C76_sequential : forall w tr c a pcs i, nth_error pcs i = Some (PGet a) ->
  exists m, nth_error (f_pcs (fst (frun (fun _ => os_resolve w tr) (mkfst (c_found c) pcs 0) (repeat i m)))) i =
            Some (PDone (RGot (get_node w tr c a))).
Proof.
  intros w tr c a pcs i E. unfold get_node.
  destruct (seq_loop w tr a i (c_found c) (c_found c) (put pcs i (PGetNext a (length (c_found c)) 0)) 1 (length (c_found c)) 0 (goto_same i _ _ pcs E) eq_refl eq_refl ltac:(lia)) as (m & H).
  exists (S m). cbn [repeat frun]. unfold fstep at 1. cbn [f_pcs f_tab f_clock]. rewrite E. destruct (frun _ _ (repeat i m)) as [x ev]. exact H.
Qed.
(** What the listeners are told: whether the address was in the table when the thread began. *)
Definition telling (i : nat) (n : node) (k : bool) (x : fst_) (evs : list fev) : Prop :=
  match nth_error (f_pcs x) i with
  | Some (PTell m k') => m = n /\ k' = k /\ told i evs = []
  | Some (PStore m) => told i evs = [(n, k)]
  | Some (PDone RAdded) => told i evs = [(n, k)]
  | _ => False
  end.
Lemma telling_run rsv i n k l : forall x evs, telling i n k x evs -> telling i n k (fst (frun rsv x l)) (evs ++ snd (frun rsv x l)).
Proof.
  induction l as [|j l IH]; intros x evs T; cbn [frun]; [cbn; now rewrite app_nil_r|].
  destruct (fstep rsv x j) as [x1 e1] eqn:E. specialize (IH x1 (evs ++ e1)). destruct (frun rsv x1 l) as [x2 e2]. cbn [fst snd] in *. rewrite app_assoc. apply IH. clear IH.
  assert (E1 : x1 = fst (fstep rsv x j)) by now rewrite E. assert (E2 : e1 = snd (fstep rsv x j)) by now rewrite E. clear E. subst x1 e1. unfold telling in *. rewrite told_app.
  destruct (Nat.eq_dec j i) as [->|Ne]; [|rewrite (step_other rsv x j i Ne), (told_other rsv x j i Ne), app_nil_r; exact T].
  unfold fstep. destruct (nth_error (f_pcs x) i) as [p|] eqn:Ep; [|contradiction T].
  destruct p as [m|m kn|m|a|a u q| |u q acc|r]; cbn [fst snd f_pcs]; try contradiction T; rewrite ?(goto_same _ _ _ _ Ep), ?app_nil_r.
  - destruct T as (-> & -> & ->). cbn. now rewrite Nat.eqb_refl.
  - exact T.
  - exact T.
Qed.
Lemma L_C76_known : forall rsv s sched i n t, nth_error (f_pcs s) i = Some (PAdd n) ->
  (* the first step of thread [i] *)
  nth_error sched t = Some i -> ~ In i (firstn t sched) ->
  forall m k, In (m, k) (told i (snd (frun rsv s sched))) ->
  m = n /\ (k = true <-> In (node_ip n) (dkeys (tab_at rsv s sched t))).
Proof.
  intros rsv s sched i n t C Ht Hf m k Hin.
  assert (Sp : sched = firstn t sched ++ i :: skipn (S t) sched).
  { rewrite <- (firstn_skipn t sched) at 1. f_equal. clear -Ht. revert t Ht. induction sched as [|a l IH]; intros [|t] H; cbn in *; try discriminate; [congruence|now apply IH]. }
  assert (B : forall l, ~ In i l -> nth_error (f_pcs (fst (frun rsv s l))) i = Some (PAdd n) /\ told i (snd (frun rsv s l)) = []).
  { clear -C. intros l. induction l as [|j l IH] using rev_ind; intros N; [split; [exact C|reflexivity]|].
    assert (N1 : ~ In i l) by (intros H; apply N, in_or_app; now left). assert (N2 : j <> i) by (intros ->; apply N, in_or_app; right; now left).
    destruct (run_snoc rsv s l j) as (-> & ->). destruct (IH N1) as (A & D).
    rewrite (step_other rsv _ j i N2), told_app, (told_other rsv _ j i N2), D. split; [exact A|reflexivity]. }
  destruct (B _ Hf) as (B1 & B2). clear B. unfold tab_at, at_step. set (a := firstn t sched) in *. set (b := skipn (S t) sched) in *. set (x := fst (frun rsv s a)) in *.
  set (kn := match sget (node_ip n) (f_tab x) with Some _ => true | None => false end).
  assert (T : telling i n kn (fst (frun rsv s (a ++ [i]))) (snd (frun rsv s (a ++ [i])))).
  { destruct (run_snoc rsv s a i) as (-> & ->). fold x. unfold telling, fstep. rewrite B1. cbn [fst snd f_pcs]. rewrite (goto_same _ _ _ _ B1), app_nil_r. repeat split. exact B2. }
  apply (telling_run rsv i n kn b) in T.
  assert (Es : snd (frun rsv s sched) = snd (frun rsv s (a ++ [i])) ++ snd (frun rsv (fst (frun rsv s (a ++ [i]))) b)).
  { rewrite Sp. change (i :: b) with ([i] ++ b). rewrite app_assoc, (frun_app rsv (a ++ [i]) b). reflexivity. }
  rewrite Es in Hin. clearbody x. set (evs := _ ++ _) in *. set (y := fst (frun rsv (fst (frun rsv s (a ++ [i]))) b)) in *. clearbody y evs.
  assert (K : (m, k) = (n, kn)).
  { unfold telling in T. destruct (nth_error (f_pcs y) i) as [p|]; [|contradiction]. destruct p as [q|q kq|q|ad|ad u q| |u q acc|r]; try contradiction.
    - destruct T as (_ & _ & T). rewrite T in Hin. destruct Hin.
    - rewrite T in Hin. destruct Hin as [H|[]]. congruence.
    - destruct r; try contradiction. rewrite T in Hin. destruct Hin as [H|[]]. congruence. }
  injection K as -> ->. split; [reflexivity|]. subst kn. rewrite (dget_some String.eqb seqb_eq).
  destruct (sget (node_ip n) (f_tab x)); split; intros H; try reflexivity; try discriminate; [eauto|destruct H; discriminate].
Qed.
