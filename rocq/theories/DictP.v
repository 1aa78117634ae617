(** Lemmas about insertion-ordered dictionaries. *)
From Verif Require Import PyBase.

Section D.
Context {K V : Type} (eqb : K -> K -> bool) (eqb_eq : forall a b, eqb a b = true <-> a = b).
Notation get := (dget eqb).
Notation set := (dset eqb).

Lemma eqb_rfl k : eqb k k = true.
Proof. now apply eqb_eq. Qed.

Lemma eqb_neq a b : a <> b -> eqb a b = false.
Proof. intros H. destruct (eqb a b) eqn:E; [|reflexivity]. apply eqb_eq in E. contradiction. Qed.

Lemma dget_dset_same k (v : V) d : get k (set k v d) = Some v.
Proof.
  induction d as [|[k' v'] d IH]; cbn [dset dget].
  - now rewrite eqb_rfl.
  - destruct (eqb k k') eqn:E; cbn [dget]; rewrite E; [reflexivity|apply IH].
Qed.

Lemma dget_dset_other k k' (v : V) d : k <> k' -> get k (set k' v d) = get k d.
Proof.
  intros H. induction d as [|[a b] d IH]; cbn [dset dget].
  - now rewrite eqb_neq.
  - destruct (eqb k' a) eqn:E; cbn [dget].
    + apply eqb_eq in E. subst a. rewrite (eqb_neq k k' H). reflexivity.
    + now rewrite IH.
Qed.

Lemma dget_dset k k' (v : V) d : get k (set k' v d) = if eqb k k' then Some v else get k d.
Proof.
  destruct (eqb k k') eqn:E.
  - apply eqb_eq in E. subst. apply dget_dset_same.
  - apply dget_dset_other. intros ->. rewrite eqb_rfl in E. discriminate.
Qed.

Lemma dget_in k (v : V) d : get k d = Some v -> In (k, v) d.
Proof.
  induction d as [|[a b] d IH]; cbn [dget]; [discriminate|].
  destruct (eqb k a) eqn:E.
  - apply eqb_eq in E. subst. intros [= ->]. now left.
  - intros H. right. auto.
Qed.

Lemma in_dget k (v : V) d : NoDup (dkeys d) -> In (k, v) d -> get k d = Some v.
Proof.
  induction d as [|[a b] d IH]; intros Hn Hi; [destruct Hi|].
  cbn [dkeys map fst] in Hn. inversion Hn as [|? ? Hni Hnd]; subst. cbn [dget].
  destruct Hi as [E|Hi].
  - injection E as -> ->. now rewrite eqb_rfl.
  - rewrite eqb_neq; [auto|]. intros ->. apply Hni. apply (in_map fst) in Hi. exact Hi.
Qed.

Lemma dget_none k (d : list (K * V)) : get k d = None <-> ~ In k (dkeys d).
Proof.
  induction d as [|[a b] d IH]; cbn [dget dkeys map fst In].
  - split; auto.
  - destruct (eqb k a) eqn:E.
    + apply eqb_eq in E. subst. split; [discriminate|tauto].
    + rewrite IH. split; [|tauto]. intros H [H1|H1]; [|tauto]. subst. rewrite eqb_rfl in E. discriminate.
Qed.

Lemma dget_some k (d : list (K * V)) : In k (dkeys d) <-> exists v, get k d = Some v.
Proof.
  destruct (get k d) as [v|] eqn:E.
  - split; [eauto|]. intros _. apply dget_in in E. apply (in_map fst) in E. exact E.
  - apply dget_none in E. split; [tauto|]. intros [v H]. discriminate.
Qed.

Lemma dkeys_dset k (v : V) d :
  dkeys (set k v d) = if isSome (get k d) then dkeys d else dkeys d ++ [k].
Proof.
  induction d as [|[a b] d IH]; cbn [dset dget dkeys map fst isSome app]; [reflexivity|].
  destruct (eqb k a) eqn:E; cbn [isSome map fst]; [reflexivity|].
  fold (dkeys (set k v d)). rewrite IH. destruct (isSome (get k d)); reflexivity.
Qed.

Lemma dset_in_keys k (v : V) d x : In x (dkeys (set k v d)) <-> x = k \/ In x (dkeys d).
Proof.
  rewrite dkeys_dset. destruct (get k d) as [w|] eqn:E; cbn [isSome].
  - split; [tauto|]. intros [->|H]; [|assumption]. apply dget_some. eauto.
  - rewrite in_app_iff. cbn [In]. intuition.
Qed.

Lemma nodup_dset k (v : V) d : NoDup (dkeys d) -> NoDup (dkeys (set k v d)).
Proof.
  intros H. rewrite dkeys_dset. destruct (get k d) as [w|] eqn:E; cbn [isSome]; [assumption|].
  apply dget_none in E.
  rewrite <- (rev_involutive (dkeys d ++ [k])). apply NoDup_rev. rewrite rev_app_distr. cbn [rev app].
  constructor; [rewrite <- in_rev; assumption|now apply NoDup_rev].
Qed.

Lemma dget_dupdate k (d e : list (K * V)) :
  get k (dupdate eqb d e) = match get k (rev e) with Some v => Some v | None => get k d end.
Proof.
  unfold dupdate. revert d; induction e as [|[a b] e IH]; intros d; cbn [fold_left fst snd].
  - reflexivity.
  - rewrite IH. cbn [rev]. clear IH.
    assert (A : forall (l : list (K * V)), get k (l ++ [(a, b)]) =
      match get k l with Some v => Some v | None => if eqb k a then Some b else None end).
    { induction l as [|[x y] l IHl]; cbn [app dget]; [reflexivity|].
      destruct (eqb k x); [reflexivity|apply IHl]. }
    rewrite A, dget_dset. destruct (get k (rev e)); [reflexivity|].
    destruct (eqb k a); reflexivity.
Qed.

(** dvals *)
Lemma dset_id k (v : V) d : get k d = Some v -> set k v d = d.
Proof.
  induction d as [|[a b] d IH]; cbn [dget dset]; [discriminate|].
  destruct (eqb k a) eqn:E; [congruence|]. intros H. now rewrite IH.
Qed.

Lemma dset_dset_same k (v w : V) d : set k w (set k v d) = set k w d.
Proof.
  induction d as [|[a b] d IH]; cbn [dset].
  - now rewrite eqb_rfl.
  - destruct (eqb k a) eqn:E; cbn [dset]; rewrite E; [reflexivity|]. now rewrite IH.
Qed.

Lemma in_dset k (v : V) d x : In x (set k v d) -> x = (k, v) \/ In x d \/ (exists a, eqb k a = true /\ x = (a, v)).
Proof.
  induction d as [|[a b] d IH]; cbn [dset].
  - intros [<-|[]]; auto.
  - destruct (eqb k a) eqn:E; cbn [In].
    + intros [<-|H]; [right; right; eauto|auto].
    + intros [<-|H]; [auto|]. destruct (IH H) as [H1|[H1|H1]]; auto.
Qed.

Lemma dset_forall (P : K -> V -> Prop) k v d :
  P k v -> (forall a b, In (a, b) d -> P a b) -> forall a b, In (a, b) (set k v d) -> P a b.
Proof.
  intros H1 H2 a b H. destruct (in_dset _ _ _ _ H) as [E|[E|(x & E & Ex)]]; auto.
  - injection E as -> ->. assumption.
  - injection Ex as -> ->. apply eqb_eq in E. subst. assumption.
Qed.
End D.

Lemma zeqb_eq (a b : Z) : Z.eqb a b = true <-> a = b.
Proof. apply Z.eqb_eq. Qed.
Lemma seqb_eq (a b : string) : String.eqb a b = true <-> a = b.
Proof. apply String.eqb_eq. Qed.

Definition zget_zset_same {V} := @dget_dset_same Z V Z.eqb zeqb_eq.
Definition zget_zset_other {V} := @dget_dset_other Z V Z.eqb zeqb_eq.
Definition zget_zset {V} := @dget_dset Z V Z.eqb zeqb_eq.
Definition zkeys_zset {V} := @dkeys_dset Z V Z.eqb.
Definition znodup_zset {V} := @nodup_dset Z V Z.eqb zeqb_eq.
Definition zget_none {V} := @dget_none Z V Z.eqb zeqb_eq.
Definition zget_some {V} := @dget_some Z V Z.eqb zeqb_eq.
Definition zget_in {V} := @dget_in Z V Z.eqb zeqb_eq.
Definition in_zget {V} := @in_dget Z V Z.eqb zeqb_eq.
