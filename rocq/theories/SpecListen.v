(** Specifications for listeners that change the list of listeners (C77). *)
From Verif Require Import PyBase ListenM.

(** No callback raises. *)
Definition calm (cb : callback) : Prop := forall h l, snd (cb h l) = Ok tt.
Definition removes (o : lop) : bool := match o with LRemove _ => true | _ => false end.
(** No callback removes a listener; none changes the list; none adds one. *)
Definition never_removes (cb : callback) : Prop := forall h l, Forall (fun o => removes o = false) (fst (cb h l)).
Definition no_change (cb : callback) : Prop := forall h l, fst (cb h l) = [].
Definition never_adds (cb : callback) : Prop := forall h l, Forall (fun o => removes o = true) (fst (cb h l)).
(** [a] is [b] with elements left out. *)
Inductive sublist : list nat -> list nat -> Prop :=
| sub_nil l : sublist [] l
| sub_keep x a b : sublist a b -> sublist (x :: a) (x :: b)
| sub_skip x a b : sublist a b -> sublist a (x :: b).

(** What a callback does to the list: one change after the other, until one fails. *)
Inductive changed : list lop -> list nat -> list nat -> bool -> Prop :=
| ch_end ls : changed [] ls ls true
| ch_add l r ls ls' b : changed r (ls ++ [l]) ls' b -> changed (LAdd l :: r) ls ls' b
| ch_old l r ls ls' b : In l ls -> changed r ls ls' b -> changed (LAddOnce l :: r) ls ls' b
| ch_new l r ls ls' b : ~ In l ls -> changed r (ls ++ [l]) ls' b -> changed (LAddOnce l :: r) ls ls' b
| ch_remove l r x y ls' b : ~ In l x -> changed r (x ++ y) ls' b -> changed (LRemove l :: r) (x ++ l :: y) ls' b
| ch_missing l r ls : ~ In l ls -> changed (LRemove l :: r) ls ls false.
(** The calls so far, each of the listener that was at the next position, none with an exception. *)
Inductive went (cb : callback) (ls : list nat) : list nat -> list nat -> Prop :=
| wt_none : went cb ls [] ls
| wt_call calls l ls1 ls2 : went cb ls calls ls1 -> nth_error ls1 (length calls) = Some l ->
    changed (fst (cb calls l)) ls1 ls2 true -> snd (cb calls l) = Ok tt -> went cb ls (calls ++ [l]) ls2.
