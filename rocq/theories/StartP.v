(** Proofs about StartM. *)
From Verif Require Import PyBase TidM TidP ManyP StartM SpecStart.
From Coq Require Import Lia.
Local Open Scope nat_scope.

Lemma change_srv : forall v f s, z_srv (change v f s) =
  match nth_error (z_srv s) v with Some x => put (z_srv s) v (f x) | None => z_srv s end.
Proof. intros v f s. unfold change. destruct (nth_error (z_srv s) v); reflexivity. Qed.
Lemma change_lists : forall v f s, z_lists (change v f s) = z_lists s.
Proof. intros v f s. unfold change. destruct (nth_error (z_srv s) v); reflexivity. Qed.
Lemma change_cur : forall v f s, z_cur (change v f s) = z_cur s.
Proof. intros v f s. unfold change. destruct (nth_error (z_srv s) v); reflexivity. Qed.
Lemma change_addr : forall v f s, z_addr (change v f s) = z_addr s.
Proof. intros v f s. unfold change. destruct (nth_error (z_srv s) v); reflexivity. Qed.
Lemma change_users : forall v f s, z_users (change v f s) = z_users s.
Proof. intros v f s. unfold change. destruct (nth_error (z_srv s) v); reflexivity. Qed.

Lemma zrun_app : forall n l1 l2 s, zrun n s (l1 ++ l2) =
  let '(s1, e1) := zrun n s l1 in let '(s2, e2) := zrun n s1 l2 in (s2, e1 ++ e2).
Proof.
  intros n l1; induction l1 as [|t l1 IH]; intros l2 s; cbn.
  - destruct (zrun n s l2); reflexivity.
  - destruct (zstep n s t) as [s1 e1]. rewrite IH. destruct (zrun n s1 l1) as [s2 e2].
    destruct (zrun n s2 l2) as [s3 e3]. now rewrite app_assoc.
Qed.
(** What holds at the beginning and is kept by every step holds in every run. *)
Lemma zrun_inv : forall n (P : sst -> list ev -> Prop) (Q : turn -> Prop) s0, P s0 [] ->
  (forall s e t s1 e1, P s e -> Q t -> zstep n s t = (s1, e1) -> P s1 (e ++ e1)) ->
  forall l, (forall t, In t l -> Q t) -> forall s e, zrun n s0 l = (s, e) -> P s e.
Proof.
  intros n P Q s0 H0 HS l. induction l as [|t l IH] using rev_ind; intros HQ s e H.
  - cbn in H. injection H as <- <-. exact H0.
  - rewrite zrun_app in H. destruct (zrun n s0 l) as [s1 e1] eqn:E1. cbn in H.
    destruct (zstep n s1 t) as [s2 e2] eqn:E2. rewrite app_nil_r in H. injection H as <- <-.
    apply (HS s1 e1 t); [|apply HQ, in_or_app; right; now left|exact E2].
    apply IH; [|reflexivity]. intros x Hx. apply HQ, in_or_app. now left.
Qed.

(** ** One step, seen from one server *)
Definition about (v : nat) (x : ev) : bool :=
  match x with EGot w _ | ETold w _ | ELost w _ => Nat.eqb w v | _ => false end.
(** Why a server is started and closed. *)
Record why := mkwhy { y_run : Prop; y_close : Prop; y_obs : Prop }.
Definition reason (s : sst) (t : turn) (v : nat) : why := mkwhy
  (exists u i uni, nth_error (z_users s) u = Some (URun i uni v) /\ t = TGo u)
  (exists u c l k, nth_error (z_users s) u = Some (UStop c l k) /\ nth_error (the_list s l) k = Some v /\ t = TGo u)
  (exists u l k, nth_error (z_users s) u = Some (UObs l k) /\ nth_error (the_list s l) k = Some v /\ t = TGo u).
Inductive vmove (y : why) (v : nat) : option srv -> option srv -> list ev -> Prop :=
| vm_same o : vmove y v o o []
| vm_new i uni : vmove y v None (Some (mksrv i uni true false [] RNew)) []
| vm_close x : y_close y -> v_open x = true -> vmove y v (Some x) (Some (set_open false x)) []
| vm_run x : y_run y -> v_pc x = RNew -> vmove y v (Some x) (Some (set_vpc RCheck x)) []
| vm_obs x : y_obs y -> vmove y v (Some x) (Some (set_obs true x)) []
| vm_check x : v_pc x = RCheck -> vmove y v (Some x) (Some (set_vpc (if v_open x then RWait else REnd) x)) []
| vm_end x : v_pc x = RWait -> v_open x = false -> vmove y v (Some x) (Some (set_vpc REnd x)) []
| vm_read x d q : v_pc x = RWait -> v_open x = true -> v_queue x = d :: q ->
    vmove y v (Some x) (Some (set_vpc (RTell d) (set_queue q x))) []
| vm_tell x d : v_pc x = RTell d ->
    vmove y v (Some x) (Some (set_vpc RCheck x)) [if v_obs x then ETold v d else ELost v d]
| vm_got x d : v_open x = true -> vmove y v (Some x) (Some (set_queue (v_queue x ++ [d]) x)) [EGot v d].

Lemma change_nth : forall v f s w, nth_error (z_srv (change v f s)) w =
  if Nat.eqb w v then option_map f (nth_error (z_srv s) w) else nth_error (z_srv s) w.
Proof.
  intros v f s w. rewrite change_srv. destruct (Nat.eqb_spec w v) as [->|N].
  - destruct (nth_error (z_srv s) v) eqn:E; [|exact E]. rewrite nth_put, Nat.eqb_refl, E. reflexivity.
  - destruct (nth_error (z_srv s) v) eqn:E; [|reflexivity]. rewrite nth_put.
    destruct (Nat.eqb_spec w v); [contradiction|]. destruct (nth_error (z_srv s) w); reflexivity.
Qed.
Lemma change_vmove : forall v f s w (R : option srv -> option srv -> list ev -> Prop) e,
  (forall o, R o o []) ->
  (w = v -> forall x, nth_error (z_srv s) v = Some x -> R (Some x) (Some (f x)) e) ->
  (w <> v -> e = []) -> (w = v -> nth_error (z_srv s) v = None -> e = []) ->
  R (nth_error (z_srv s) w) (nth_error (z_srv (change v f s)) w) e.
Proof.
  intros v f s w R e R0 R1 E1 E2. rewrite change_nth. destruct (Nat.eqb_spec w v) as [->|N].
  - destruct (nth_error (z_srv s) v) eqn:E; [now apply R1|]. rewrite E2; [apply R0|reflexivity|reflexivity].
  - rewrite (E1 N). apply R0.
Qed.

Definition wf_run (s : sst) : Prop := forall u i uni v, nth_error (z_users s) u = Some (URun i uni v) ->
  exists x, nth_error (z_srv s) v = Some x /\ v_pc x = RNew.
Lemma step_vmove : forall n s t s1 e1, wf_run s -> zstep n s t = (s1, e1) ->
  forall w, vmove (reason s t w) w (nth_error (z_srv s) w) (nth_error (z_srv s1) w) (filter (about w) e1).
Proof.
  intros n s t s1 e1 W H w.
  assert (US : forall u f p, nth_error (z_users s) u = Some p -> (f = false -> t = TGo u) -> (f = true -> exists i uni, p = UBind i uni) -> ustep n s u f p = (s1, e1) ->
    vmove (reason s t w) w (nth_error (z_srv s) w) (nth_error (z_srv s1) w) (filter (about w) e1)).
  { intros u f p Hp Ht Hb Hu. destruct p; cbn [ustep] in Hu.
    - assert (s1 = s /\ e1 = []) as [-> ->] by (split; congruence). apply vm_same.
    - assert (t = TGo u) as -> by (apply Ht; destruct f; [destruct (Hb eq_refl) as (? & ? & ?); discriminate|reflexivity]).
      destruct (nth_error (the_list s l) k) as [v|] eqn:El.
      2:{ assert (s1 = set_user u (UClear c) s /\ e1 = []) as [-> ->] by (split; congruence). apply vm_same. }
      destruct (nth_error (z_srv s) v) as [x|] eqn:Ex.
      2:{ assert (s1 = s /\ e1 = []) as [-> ->] by (split; congruence). apply vm_same. }
      destruct (v_open x) eqn:Eo.
      2:{ assert (s1 = set_user u (UStop c l (S k)) s /\ e1 = []) as [-> ->] by (split; congruence). apply vm_same. }
      assert (s1 = set_user u (UJoin c l k) (change v (set_open false) s) /\ e1 = []) as [-> ->] by (split; congruence).
      cbn [set_user z_srv]. apply change_vmove; [intros; apply vm_same| |reflexivity|reflexivity].
      intros -> x' Hx'. assert (x' = x) as -> by congruence. apply vm_close; [|exact Eo]. exists u, c, l, k. auto.
    - destruct (nth_error (the_list s l) k) as [v|]; [|assert (s1 = s /\ e1 = []) as [-> ->] by (split; congruence); apply vm_same].
      destruct (nth_error (z_srv s) v) as [x|]; [|assert (s1 = s /\ e1 = []) as [-> ->] by (split; congruence); apply vm_same].
      destruct (v_pc x);
        first [assert (s1 = s /\ e1 = []) as [-> ->] by (split; congruence); apply vm_same
              |assert (s1 = set_user u UIdle s /\ e1 = [ERaise u]) as [-> ->] by (split; congruence); apply vm_same
              |assert (s1 = set_user u (UStop c l (S k)) s /\ e1 = []) as [-> ->] by (split; congruence); apply vm_same].
    - destruct c; injection Hu as <- <-; apply vm_same.
    - destruct (Nat.ltb i n).
      + destruct f; injection Hu as <- <-; [apply vm_same|]. cbn [set_user set_srv z_srv filter].
        destruct (Nat.lt_ge_cases w (length (z_srv s))).
        * rewrite nth_error_app1 by assumption. apply vm_same.
        * rewrite nth_error_app2 by assumption. rewrite (proj2 (nth_error_None (z_srv s) w)) by assumption.
          destruct (w - length (z_srv s)) as [|j]; cbn; [apply vm_new|]. destruct j; apply vm_same.
      + injection Hu as <- <-. apply vm_same.
    - destruct (W u i uni v Hp) as (x & Hx & Px).
      injection Hu as <- <-. cbn [set_user z_srv filter].
      apply change_vmove; [intros; apply vm_same| |reflexivity|reflexivity].
      intros -> x' Hx'. assert (x' = x) as -> by congruence. apply vm_run; [|exact Px]. exists u, i, uni. split; [exact Hp|].
      apply Ht; destruct f; [destruct (Hb eq_refl) as (? & ? & ?); discriminate|reflexivity].
    - injection Hu as <- <-. apply vm_same.
    - destruct (the_list s (z_cur s)); injection Hu as <- <-; apply vm_same.
    - injection Hu as <- <-. apply vm_same.
    - destruct (nth_error (the_list s l) k) as [v|] eqn:El; injection Hu as <- <-; [|apply vm_same]. cbn [set_user z_srv filter].
      apply change_vmove; [intros; apply vm_same| |reflexivity|reflexivity]. intros -> x _. apply vm_obs.
      exists u, l, k. split; [exact Hp|]. split; [exact El|].
      apply Ht; destruct f; [destruct (Hb eq_refl) as (? & ? & ?); discriminate|reflexivity]. }
  destruct t as [u c|u|u|v|v d]; cbn [zstep] in H.
  - destruct (nth_error (z_users s) u) as [[]|]; injection H as <- <-; apply vm_same.
  - destruct (nth_error (z_users s) u) as [p|] eqn:Ep; [|injection H as <- <-; apply vm_same]. apply (US u false p); auto. discriminate.
  - destruct (nth_error (z_users s) u) as [[]|] eqn:Ep; try (injection H as <- <-; apply vm_same). eapply (US u true); eauto. discriminate.
  - destruct (nth_error (z_srv s) v) as [x|] eqn:Ex; [|injection H as <- <-; apply vm_same].
    unfold rstep in H. destruct (v_pc x) as [| | |d|] eqn:Ep.
    + injection H as <- <-; apply vm_same.
    + injection H as <- <-. apply change_vmove; [intros; apply vm_same| |reflexivity|reflexivity].
      intros -> x' Hx'. assert (x' = x) as -> by congruence. now apply vm_check.
    + destruct (v_open x) eqn:Eo.
      * destruct (v_queue x) as [|d q] eqn:Eq; injection H as <- <-; [apply vm_same|].
        apply change_vmove; [intros; apply vm_same| |reflexivity|reflexivity].
        intros -> x' Hx'. assert (x' = x) as -> by congruence. now apply vm_read.
      * injection H as <- <-. apply change_vmove; [intros; apply vm_same| |reflexivity|reflexivity].
        intros -> x' Hx'. assert (x' = x) as -> by congruence. now apply vm_end.
    + injection H as <- <-. apply change_vmove; [intros; apply vm_same| | |].
      * intros -> x' Hx'. assert (x' = x) as -> by congruence.
        assert (filter (about v) [if v_obs x then ETold v d else ELost v d] = [if v_obs x then ETold v d else ELost v d]) as ->
          by (destruct (v_obs x); cbn; now rewrite Nat.eqb_refl).
        now apply vm_tell.
      * intros N. destruct (v_obs x); cbn; destruct (Nat.eqb_spec v w); congruence.
      * intros _ E. congruence.
    + injection H as <- <-; apply vm_same.
  - destruct (nth_error (z_srv s) v) as [x|] eqn:Ex; [|injection H as <- <-; apply vm_same].
    destruct (v_open x) eqn:Eo; injection H as <- <-; [|apply vm_same].
    apply change_vmove; [intros; apply vm_same| | |].
    + intros -> x' Hx'. assert (x' = x) as -> by congruence. cbn. rewrite Nat.eqb_refl. now apply vm_got.
    + intros N. cbn. destruct (Nat.eqb_spec v w); congruence.
    + congruence.
Qed.

Lemma vmove_mono : forall y v x o e, vmove y v (Some x) o e -> exists x', o = Some x' /\ kind x' = kind x /\
  (v_open x = false -> v_open x' = false) /\ (v_pc x <> RNew -> v_pc x' <> RNew) /\ (v_obs x = true -> v_obs x' = true) /\
  ((v_pc x = REnd -> v_open x = false) -> v_pc x' = REnd -> v_open x' = false) /\
  (v_pc x' = RNew -> v_pc x = RNew).
Proof.
  intros y v x o e H. inversion H; subst; eexists; (split; [reflexivity|]); (split; [reflexivity|]); cbn;
    repeat split; try congruence; try (intros; discriminate); auto.
  - intros _. destruct (v_open x); discriminate.
  - intros _. destruct (v_open x); [discriminate|reflexivity].
  - destruct (v_open x); discriminate.
Qed.
Lemma vmove_none : forall y v o e, vmove y v None o e -> e = [] /\ (o = None \/ exists i uni, o = Some (mksrv i uni true false [] RNew)).
Proof. intros y v o e H. inversion H; subst; (split; [reflexivity|]); [now left|right; eauto]. Qed.

Record wf (s : sst) : Prop := {
  w_cur : z_cur s < length (z_lists s);
  w_in : forall l v, In v (the_list s l) -> exists x, nth_error (z_srv s) v = Some x /\ v_pc x <> RNew;
  w_run : wf_run s;
  w_app : forall u i uni v, nth_error (z_users s) u = Some (UAppend i uni v) ->
    exists x, nth_error (z_srv s) v = Some x /\ v_pc x <> RNew;
  w_join : forall u c l k, nth_error (z_users s) u = Some (UJoin c l k) ->
    exists v x, nth_error (the_list s l) k = Some v /\ nth_error (z_srv s) v = Some x /\ v_open x = false;
  w_uniq : forall u1 u2 i1 i2 b1 b2 v, nth_error (z_users s) u1 = Some (URun i1 b1 v) ->
    nth_error (z_users s) u2 = Some (URun i2 b2 v) -> u1 = u2;
  w_end : forall v x, nth_error (z_srv s) v = Some x -> v_pc x = REnd -> v_open x = false }.

(** The lists grow. *)
Lemma step_lists : forall n s t s1 e1, z_cur s < length (z_lists s) -> zstep n s t = (s1, e1) ->
  (z_lists s1 = z_lists s /\ z_cur s1 = z_cur s) \/
  (exists u i uni v, nth_error (z_users s) u = Some (UAppend i uni v) /\ t = TGo u /\
     z_lists s1 = put (z_lists s) (z_cur s) (the_list s (z_cur s) ++ [v]) /\ z_cur s1 = z_cur s) \/
  (exists u c, nth_error (z_users s) u = Some (UClear c) /\ t = TGo u /\ z_lists s1 = z_lists s ++ [[]] /\ z_cur s1 = length (z_lists s)).
Proof.
  intros n s t s1 e1 C H. destruct t as [u c|u|u|v|v d]; cbn [zstep] in H.
  - destruct (nth_error (z_users s) u) as [[]|]; injection H as <- <-; left; split; reflexivity.
  - destruct (nth_error (z_users s) u) as [p|] eqn:Ep; [|injection H as <- <-; left; split; reflexivity].
    destruct p; cbn [ustep] in H.
    + injection H as <- <-; left; split; reflexivity.
    + left. destruct (nth_error (the_list s l) k) as [v|]; [|injection H as <- <-; split; reflexivity].
      destruct (nth_error (z_srv s) v) as [x|]; [|injection H as <- <-; split; reflexivity].
      destruct (v_open x); injection H as <- <-; cbn [set_user z_lists z_cur]; rewrite ?change_lists, ?change_cur; split; reflexivity.
    + left. destruct (nth_error (the_list s l) k) as [v|]; [|injection H as <- <-; split; reflexivity].
      destruct (nth_error (z_srv s) v) as [x|]; [|injection H as <- <-; split; reflexivity].
      destruct (v_pc x); injection H as <- <-; split; reflexivity.
    + right. right. exists u, c. destruct c; injection H as <- <-; (split; [exact Ep|]); repeat split; reflexivity.
    + left. destruct (Nat.ltb i n); injection H as <- <-; split; reflexivity.
    + left. injection H as <- <-; cbn [set_user z_lists z_cur]; rewrite ?change_lists, ?change_cur; split; reflexivity.
    + right. left. exists u, i, uni, v. injection H as <- <-. split; [exact Ep|]. repeat split; reflexivity.
    + left. destruct (the_list s (z_cur s)); injection H as <- <-; split; reflexivity.
    + left. injection H as <- <-; split; reflexivity.
    + left. destruct (nth_error (the_list s l) k) as [v|]; injection H as <- <-; cbn [set_user z_lists z_cur]; rewrite ?change_lists, ?change_cur; split; reflexivity.
  - left. destruct (nth_error (z_users s) u) as [[]|] eqn:Ep; try (injection H as <- <-; split; reflexivity).
    cbn [ustep] in H. destruct (Nat.ltb i n); injection H as <- <-; split; reflexivity.
  - left. destruct (nth_error (z_srv s) v) as [x|]; [|injection H as <- <-; split; reflexivity].
    unfold rstep in H. destruct (v_pc x); try (injection H as <- <-; rewrite ?change_lists, ?change_cur; split; reflexivity).
    destruct (v_open x); [destruct (v_queue x)|]; injection H as <- <-; rewrite ?change_lists, ?change_cur; split; reflexivity.
  - left. destruct (nth_error (z_srv s) v) as [x|]; [|injection H as <- <-; split; reflexivity].
    destruct (v_open x); injection H as <- <-; rewrite ?change_lists, ?change_cur; split; reflexivity.
Qed.
Lemma nth_nil_nth {A} (l : list (list A)) i : nth i l [] = match nth_error l i with Some x => x | None => [] end.
Proof. revert i; induction l as [|x l IH]; intros [|i]; cbn; auto. Qed.
Lemma step_the_list : forall n s t s1 e1, z_cur s < length (z_lists s) -> zstep n s t = (s1, e1) -> forall l,
  the_list s1 l = the_list s l \/
  exists u i uni v, nth_error (z_users s) u = Some (UAppend i uni v) /\ t = TGo u /\ l = z_cur s /\ the_list s1 l = the_list s l ++ [v].
Proof.
  intros n s t s1 e1 C H l. destruct (step_lists _ _ _ _ _ C H) as [[A B]|[(u & i & uni & v & U & T & A & B)|(u & c & U & T & A & B)]].
  - left. unfold the_list. now rewrite A.
  - destruct (Nat.eq_dec l (z_cur s)) as [->|N].
    + right. exists u, i, uni, v. repeat split; auto. unfold the_list at 1. rewrite A, nth_nil_nth, nth_put, Nat.eqb_refl.
      destruct (nth_error (z_lists s) (z_cur s)) eqn:E; [reflexivity|]. apply nth_error_None in E. lia.
    + left. unfold the_list at 1. rewrite A, nth_nil_nth, nth_put. destruct (Nat.eqb_spec l (z_cur s)); [contradiction|].
      unfold the_list. rewrite nth_nil_nth. destruct (nth_error (z_lists s) l); reflexivity.
  - left. unfold the_list. rewrite A. destruct (Nat.lt_ge_cases l (length (z_lists s))).
    + now rewrite app_nth1.
    + rewrite app_nth2 by assumption. rewrite (nth_overflow (z_lists s)) by assumption.
      destruct (l - length (z_lists s)) as [|[|j]]; reflexivity.
Qed.
Lemma step_list_nth : forall n s t s1 e1, z_cur s < length (z_lists s) -> zstep n s t = (s1, e1) -> forall l k v,
  nth_error (the_list s l) k = Some v -> nth_error (the_list s1 l) k = Some v.
Proof.
  intros n s t s1 e1 C H l k v E. destruct (step_the_list _ _ _ _ _ C H l) as [->|(u & i & uni & w & _ & _ & _ & ->)]; [exact E|].
  rewrite nth_error_app1; [exact E|]. apply nth_error_Some. congruence.
Qed.

Inductive unext (s s1 : sst) (p : upc) : upc -> Prop :=
| un_plain q : match q with URun _ _ _ | UAppend _ _ _ | UJoin _ _ _ => False | _ => True end -> unext s s1 p q
| un_run i uni : z_srv s1 = z_srv s ++ [mksrv i uni true false [] RNew] -> unext s s1 p (URun i uni (length (z_srv s)))
| un_app i uni v : p = URun i uni v -> z_srv s1 = z_srv (change v (set_vpc RCheck) s) -> unext s s1 p (UAppend i uni v)
| un_join c l k v : nth_error (the_list s l) k = Some v -> z_srv s1 = z_srv (change v (set_open false) s) ->
    (exists x, nth_error (z_srv s) v = Some x) -> unext s s1 p (UJoin c l k).
Lemma step_users : forall n s t s1 e1, zstep n s t = (s1, e1) ->
  (z_users s1 = z_users s) \/
  exists u p q, nth_error (z_users s) u = Some p /\ z_users s1 = put (z_users s) u q /\ unext s s1 p q.
Proof.
  intros n s t s1 e1 H.
  assert (US : forall u f p, nth_error (z_users s) u = Some p -> ustep n s u f p = (s1, e1) ->
    (z_users s1 = z_users s) \/
    exists u p q, nth_error (z_users s) u = Some p /\ z_users s1 = put (z_users s) u q /\ unext s s1 p q).
  { intros u f p Hp Hu. destruct p; cbn [ustep] in Hu.
    - left. congruence.
    - destruct (nth_error (the_list s l) k) as [v|] eqn:El.
      2:{ injection Hu as <- <-. right. eexists u, _, _. split; [exact Hp|]. split; [reflexivity|]. now apply un_plain. }
      destruct (nth_error (z_srv s) v) as [x|] eqn:Ex; [|left; congruence].
      destruct (v_open x); injection Hu as <- <-; right; eexists u, _, _; (split; [exact Hp|]);
        cbn [set_user z_users]; rewrite ?change_users; (split; [reflexivity|]).
      + apply un_join with v; [exact El|reflexivity|exists x; exact Ex].
      + now apply un_plain.
    - destruct (nth_error (the_list s l) k) as [v|] eqn:El; [|left; congruence].
      destruct (nth_error (z_srv s) v) as [x|] eqn:Ex; [|left; congruence].
      destruct (v_pc x); try (left; congruence); injection Hu as <- <-; right; eexists u, _, _; (split; [exact Hp|]); (split; [reflexivity|]); now apply un_plain.
    - right. destruct c; injection Hu as <- <-; eexists u, _, _; (split; [exact Hp|]); (split; [reflexivity|]); now apply un_plain.
    - right. destruct (Nat.ltb i n); [destruct f|]; injection Hu as <- <-; eexists u, _, _; (split; [exact Hp|]); (split; [reflexivity|]);
        first [now apply un_plain | now apply un_run].
    - right. injection Hu as <- <-; eexists u, _, _; (split; [exact Hp|]); cbn [set_user z_users]; rewrite ?change_users; (split; [reflexivity|]); now apply un_app.
    - right. injection Hu as <- <-; eexists u, _, _; (split; [exact Hp|]); (split; [reflexivity|]). apply un_plain. destruct uni; exact I.
    - right. destruct (the_list s (z_cur s)); injection Hu as <- <-; eexists u, _, _; (split; [exact Hp|]); (split; [reflexivity|]); now apply un_plain.
    - right. injection Hu as <- <-; eexists u, _, _; (split; [exact Hp|]); (split; [reflexivity|]); now apply un_plain.
    - right. destruct (nth_error (the_list s l) k); injection Hu as <- <-; eexists u, _, _; (split; [exact Hp|]); cbn [set_user z_users]; rewrite ?change_users; (split; [reflexivity|]); now apply un_plain. }
  destruct t as [u c|u|u|v|v d]; cbn [zstep] in H.
  - destruct (nth_error (z_users s) u) as [[]|] eqn:Ep; try (left; congruence).
    injection H as <- <-. right; eexists u, _, _; (split; [exact Ep|]); (split; [reflexivity|]); now apply un_plain.
  - destruct (nth_error (z_users s) u) as [p|] eqn:Ep; [|left; congruence]. now apply (US u false p).
  - destruct (nth_error (z_users s) u) as [[]|] eqn:Ep; try (left; congruence). eapply US; eassumption.
  - left. destruct (nth_error (z_srv s) v) as [x|]; [|congruence].
    unfold rstep in H. destruct (v_pc x); try (injection H as <- <-; now rewrite ?change_users).
    destruct (v_open x); [destruct (v_queue x)|]; injection H as <- <-; now rewrite ?change_users.
  - left. destruct (nth_error (z_srv s) v) as [x|]; [|congruence].
    destruct (v_open x); injection H as <- <-; now rewrite ?change_users.
Qed.
Lemma nth_put_same' {A} (l : list A) u q p : nth_error l u = Some p -> nth_error (put l u q) u = Some q.
Proof. intros E. rewrite nth_put, Nat.eqb_refl, E. reflexivity. Qed.
Lemma nth_put_cases {A} (l : list A) u q w p : nth_error (put l u q) w = Some p ->
  (w = u /\ p = q) \/ (w <> u /\ nth_error l w = Some p).
Proof.
  rewrite nth_put. destruct (Nat.eqb_spec w u) as [->|N]; destruct (nth_error l _); intros E; try discriminate; [left|right]; split; congruence.
Qed.

Lemma wf_new : forall k, wf (new_sst k).
Proof.
  intros k.
  assert (U : forall u p, nth_error (repeat UIdle k) u = Some p -> p = UIdle).
  { intros u p H. apply nth_error_In, repeat_spec in H. exact H. }
  constructor; cbn.
  - lia.
  - unfold the_list; cbn. intros [|[|l]] v [].
  - intros u i uni v H. apply U in H. discriminate.
  - intros u i uni v H. apply U in H. discriminate.
  - intros u c l j H. apply U in H. discriminate.
  - intros u1 u2 i1 i2 b1 b2 v H. apply U in H. discriminate.
  - intros [|v] x H; discriminate.
Qed.
Lemma wf_step : forall n s t s1 e1, wf s -> zstep n s t = (s1, e1) -> wf s1.
Proof.
  intros n s t s1 e1 W H. pose proof (step_vmove _ _ _ _ _ (w_run s W) H) as VM.
  assert (M : forall v x, nth_error (z_srv s) v = Some x -> exists x', nth_error (z_srv s1) v = Some x' /\
    (v_open x = false -> v_open x' = false) /\ (v_pc x <> RNew -> v_pc x' <> RNew)).
  { intros v x Hx. pose proof (VM v) as Q. rewrite Hx in Q. destruct (vmove_mono _ _ _ _ _ Q) as (x' & A & _ & B & C & _). eauto. }
  assert (LN := step_list_nth _ _ _ _ _ (w_cur s W) H).
  assert (SU := step_users _ _ _ _ _ H).
  assert (RunOld : forall u i uni v, nth_error (z_users s) u = Some (URun i uni v) -> nth_error (z_users s1) u = Some (URun i uni v) ->
     exists x, nth_error (z_srv s1) v = Some x /\ v_pc x = RNew).
  { intros u i uni v Hu Hu1. destruct (w_run s W u i uni v Hu) as (x & Hx & Px).
    pose proof (VM v) as Q. rewrite Hx in Q.
    destruct (vmove_mono _ _ _ _ _ Q) as (x' & A & _). exists x'. split; [exact A|]. rewrite A in Q.
    inversion Q as [|?|? ?|x0 Y0 P0|? ?|? Y1|? Y1 ?|? d q Y1 Y2 Y3|? d Y1|? d Y1]; subst; cbn; try congruence.
    destruct Y0 as (u' & i' & uni' & Hu' & ->). assert (u' = u) as -> by exact (w_uniq s W _ _ _ _ _ _ _ Hu' Hu).
    cbn [zstep] in H. rewrite Hu in H. cbn [ustep] in H. injection H as <- <-. cbn [set_user z_users] in Hu1.
    rewrite change_users, (nth_put_same' _ _ _ _ Hu) in Hu1. discriminate. }
  constructor.
  - destruct (step_lists _ _ _ _ _ (w_cur s W) H) as [[A B]|[(u & i & uni & v & U & T & A & B)|(u & c & U & T & A & B)]]; rewrite A, B.
    + exact (w_cur s W).
    + rewrite length_put. exact (w_cur s W).
    + rewrite app_length. cbn. lia.
  - intros l v Hv.
    assert (exists x, nth_error (z_srv s) v = Some x /\ v_pc x <> RNew) as (x & Hx & Px).
    { destruct (step_the_list _ _ _ _ _ (w_cur s W) H l) as [E|(u & i & uni & w & Hu & _ & _ & E)]; rewrite E in Hv.
      - exact (w_in s W l v Hv).
      - apply in_app_or in Hv. destruct Hv as [Hv|[<-|[]]]; [exact (w_in s W l v Hv)|exact (w_app s W u i uni w Hu)]. }
    destruct (M v x Hx) as (x' & Hx' & _ & N). eauto.
  - intros u i uni v Hu. destruct SU as [SU|(u' & p & q & Hp & SU & UN)].
    + apply (RunOld u i uni v); [now rewrite <- SU|exact Hu].
    + pose proof Hu as Hu1. rewrite SU in Hu. apply nth_put_cases in Hu as [[-> <-]|[N Hu]].
      * inversion UN as [q Hq|i' uni' Hs| |]; subst; [destruct Hq|]. rewrite Hs.
        exists (mksrv i uni true false [] RNew). split; [|reflexivity].
        rewrite nth_error_app2 by lia. rewrite Nat.sub_diag. reflexivity.
      * exact (RunOld u i uni v Hu Hu1).
  - intros u i uni v Hu. destruct SU as [SU|(u' & p & q & Hp & SU & UN)]; rewrite SU in Hu.
    + destruct (w_app s W u i uni v Hu) as (x & Hx & Px). destruct (M v x Hx) as (x' & Hx' & _ & N). eauto.
    + apply nth_put_cases in Hu as [[-> <-]|[N Hu]].
      * inversion UN as [q Hq| |i' uni' v' -> Hs|]; subst; [destruct Hq|].
        destruct (w_run s W u' i uni v Hp) as (x & Hx & Px). rewrite Hs.
        exists (set_vpc RCheck x). rewrite change_nth, Nat.eqb_refl, Hx. split; [reflexivity|discriminate].
      * destruct (w_app s W u i uni v Hu) as (x & Hx & Px). destruct (M v x Hx) as (x' & Hx' & _ & Q). eauto.
  - intros u c l k Hu. destruct SU as [SU|(u' & p & q & Hp & SU & UN)]; rewrite SU in Hu.
    + destruct (w_join s W u c l k Hu) as (v & x & Hv & Hx & Ho). destruct (M v x Hx) as (x' & Hx' & O & _).
      exists v, x'. auto.
    + apply nth_put_cases in Hu as [[-> <-]|[N Hu]].
      * inversion UN as [q Hq| | |c' l' k' v Hv Hs [x Hx]]; subst; [destruct Hq|].
        exists v, (set_open false x). split; [now apply LN|]. rewrite Hs, change_nth, Nat.eqb_refl, Hx. split; reflexivity.
      * destruct (w_join s W u c l k Hu) as (v & x & Hv & Hx & Ho). destruct (M v x Hx) as (x' & Hx' & O & _).
        exists v, x'. auto.
  - intros u1 u2 i1 i2 b1 b2 v H1 H2. destruct SU as [SU|(u' & p & q & Hp & SU & UN)]; rewrite SU in H1, H2.
    + exact (w_uniq s W _ _ _ _ _ _ _ H1 H2).
    + apply nth_put_cases in H1 as [[-> E1]|[N1 H1]]; apply nth_put_cases in H2 as [[-> E2]|[N2 H2]].
      * reflexivity.
      * subst q. inversion UN as [q Hq|i' uni' Hs| |]; subst; [destruct Hq|].
        destruct (w_run s W _ _ _ _ H2) as (x & Hx & _). assert (nth_error (z_srv s) (length (z_srv s)) = None) by (apply nth_error_None; lia). congruence.
      * subst q. inversion UN as [q Hq|i' uni' Hs| |]; subst; [destruct Hq|].
        destruct (w_run s W _ _ _ _ H1) as (x & Hx & _). assert (nth_error (z_srv s) (length (z_srv s)) = None) by (apply nth_error_None; lia). congruence.
      * exact (w_uniq s W _ _ _ _ _ _ _ H1 H2).
  - intros v x' Hx' Pe. pose proof (VM v) as Q. rewrite Hx' in Q. destruct (nth_error (z_srv s) v) as [x|] eqn:Ex.
    + destruct (vmove_mono _ _ _ _ _ Q) as (x'' & A & _ & _ & _ & _ & B & _). assert (x'' = x') as -> by congruence.
      apply B; [exact (w_end s W v x Ex)|exact Pe].
    + apply vmove_none in Q as [_ [Q|(i & uni & Q)]]; [discriminate|]. injection Q as ->. discriminate.
Qed.

(** ** Order of messages *)
Lemma about_app : forall v e1 e2, filter (about v) (e1 ++ e2) = filter (about v) e1 ++ filter (about v) e2.
Proof. intros. apply filter_app. Qed.
Lemma flat_about : forall v (f : ev -> list nat) e, (forall x, about v x = false -> f x = []) ->
  flat_map f e = flat_map f (filter (about v) e).
Proof.
  intros v f e Hf. induction e as [|x e IH]; [reflexivity|]. cbn. destruct (about v x) eqn:E; cbn; [now rewrite IH|].
  now rewrite (Hf x E), IH.
Qed.
Lemma got_about : forall v e, got v e = got v (filter (about v) e).
Proof. intros. apply flat_about. intros [] E; try reflexivity. cbn in E. now rewrite E. Qed.
Lemma told_about : forall v e, told v e = told v (filter (about v) e).
Proof. intros. apply flat_about. intros [] E; try reflexivity. cbn in E. now rewrite E. Qed.
Lemma lost_about : forall v e, lost v e = lost v (filter (about v) e).
Proof. intros. apply flat_about. intros [] E; try reflexivity. cbn in E. now rewrite E. Qed.

Definition fifo (s : sst) (e : list ev) : Prop := forall v,
  got v e = lost v e ++ told v e ++ waiting_at s v /\
  match nth_error (z_srv s) v with
  | Some x => v_obs x = false -> told v e = []
  | None => True
  end.
Lemma got_app : forall v a b, got v (a ++ b) = got v a ++ got v b. Proof. intros; apply flat_map_app. Qed.
Lemma told_app : forall v a b, told v (a ++ b) = told v a ++ told v b. Proof. intros; apply flat_map_app. Qed.
Lemma lost_app : forall v a b, lost v (a ++ b) = lost v a ++ lost v b. Proof. intros; apply flat_map_app. Qed.
Lemma fifo_step : forall n s e t s1 e1, wf s -> fifo s e -> (forall v, nth_error (z_srv s) v = None -> told v e = []) ->
  zstep n s t = (s1, e1) -> fifo s1 (e ++ e1) /\ (forall v, nth_error (z_srv s1) v = None -> told v (e ++ e1) = []).
Proof.
  intros n s e t s1 e1 W F F0 H.
  pose proof (step_vmove _ _ _ _ _ (w_run s W) H) as VM.
  assert (A : forall v, (got v (e ++ e1) = lost v (e ++ e1) ++ told v (e ++ e1) ++ waiting_at s1 v) /\
    match nth_error (z_srv s1) v with Some x => v_obs x = false -> told v (e ++ e1) = [] | None => told v (e ++ e1) = [] end).
  { intros v. pose proof (VM v) as Q. destruct (F v) as [G T]. specialize (F0 v).
    rewrite got_app, lost_app, told_app, (got_about v e1), (lost_about v e1), (told_about v e1).
    unfold waiting_at in *.
    inversion Q as [o Ho H1 He|i uni Ho H1 He|x Y Y1 Ho H1 He|x Y0 P0 Ho H1 He|x Y Ho H1 He|x Y1 Ho H1 He|x Y1 Y2 Ho H1 He|x d q Y1 Y2 Y3 Ho H1 He|x d Y1 Ho H1 He|x d Y1 Ho H1 He];
      rewrite <- ?Ho in G, T, F0; cbn [got told lost flat_map]; rewrite ?app_nil_r;
      unfold waiting in *; cbn [v_pc v_queue v_obs set_open set_vpc set_obs set_queue] in *.
    - assert (E : nth_error (z_srv s1) v = nth_error (z_srv s) v) by congruence. rewrite E in *. clear E H1. subst o.
      split; [exact G|]. destruct (nth_error (z_srv s) v); auto.
    - rewrite app_nil_r in G. split; [exact G|]. auto.
    - split; [exact G|exact T].
    - rewrite P0 in G. split; [exact G|exact T].
    - split; [exact G|discriminate].
    - rewrite Y1 in G. split; [|exact T]. destruct (v_open x); exact G.
    - rewrite Y1 in G. split; [exact G|exact T].
    - rewrite Y1, Y3 in G. split; [exact G|exact T].
    - rewrite Y1 in G. rewrite G. destruct (v_obs x) eqn:Eo; cbn [flat_map]; rewrite Nat.eqb_refl, ?app_nil_r.
      + split; [|discriminate]. rewrite <- !app_assoc. reflexivity.
      + rewrite (T eq_refl). split; [|reflexivity]. cbn. rewrite <- !app_assoc. reflexivity.
    - rewrite Nat.eqb_refl. cbn [app]. rewrite G, <- !app_assoc. split; [reflexivity|exact T]. }
  split.
  - intros v. destruct (A v) as [A1 A2]. split; [exact A1|]. destruct (nth_error (z_srv s1) v); auto.
  - intros v N. destruct (A v) as [_ A2]. now rewrite N in A2.
Qed.
Lemma wf_reach : forall n k l s e, zrun n (new_sst k) l = (s, e) -> wf s.
Proof.
  intros n k l s e H. apply (zrun_inv n (fun s _ => wf s) (fun _ => True) (new_sst k)) with (l := l) (e := e); auto.
  - apply wf_new.
  - intros s0 e0 t s1 e1 W _ Hs. exact (wf_step n s0 t s1 e1 W Hs).
Qed.
Lemma L_C99_fifo : forall n k l s e v, zrun n (new_sst k) l = (s, e) ->
  got v e = lost v e ++ told v e ++ waiting_at s v.
Proof.
  intros n k l s e v H.
  assert (wf s /\ fifo s e /\ (forall v, nth_error (z_srv s) v = None -> told v e = [])) as (_ & F & _).
  { apply (zrun_inv n (fun s e => wf s /\ fifo s e /\ (forall v, nth_error (z_srv s) v = None -> told v e = [])) (fun _ => True) (new_sst k)) with (l := l); auto.
    - split; [apply wf_new|]. split; [|reflexivity]. intros w. unfold waiting_at. cbn. destruct w; cbn; auto.
    - intros s0 e0 t s1 e1 (W & F & F0) _ Hs. split; [exact (wf_step n s0 t s1 e1 W Hs)|]. exact (fifo_step n s0 e0 t s1 e1 W F F0 Hs). }
  exact (proj1 (F v)).
Qed.

(** ** Exceptions, and calls that return *)
Ltac nope H := cbn in H; repeat destruct H as [H|H]; first [contradiction|discriminate].
Lemma L_C99_raises : forall n k l s e u, zrun n (new_sst k) l = (s, e) -> no_fail l -> ~ In (ERaise u) e.
Proof.
  intros n k l s e u H NF.
  assert (wf s /\ ~ In (ERaise u) e) as [_ A]; [|exact A].
  apply (zrun_inv n (fun s e => wf s /\ ~ In (ERaise u) e) (fun t => forall w, t <> TFail w) (new_sst k)) with (l := l); auto.
  - split; [apply wf_new|intros []].
  - intros s0 e0 t s1 e1 [W N] Q Hs. split; [exact (wf_step n s0 t s1 e1 W Hs)|].
    intros I0. apply in_app_or in I0 as [I0|I0]; [exact (N I0)|].
    destruct t as [w c|w|w|v|v d]; cbn [zstep] in Hs.
    + destruct (nth_error (z_users s0) w) as [[]|]; injection Hs as <- <-; nope I0.
    + destruct (nth_error (z_users s0) w) as [p|] eqn:Ep; [|injection Hs as <- <-; nope I0].
      destruct p; cbn [ustep] in Hs.
      * injection Hs as <- <-; nope I0.
      * destruct (nth_error (the_list s0 l0) k0) as [v|]; [|injection Hs as <- <-; nope I0].
        destruct (nth_error (z_srv s0) v) as [x|]; [|injection Hs as <- <-; nope I0].
        destruct (v_open x); injection Hs as <- <-; nope I0.
      * destruct (w_join s0 W w c l0 k0 Ep) as (v & x & Hv & Hx & Ho). rewrite Hv, Hx in Hs.
        destruct (w_in s0 W l0 v (nth_error_In _ _ Hv)) as (x' & Hx' & NP). assert (x' = x) as -> by congruence.
        destruct (v_pc x); try contradiction; injection Hs as <- <-; nope I0.
      * destruct c; injection Hs as <- <-; nope I0.
      * destruct (Nat.ltb i n); injection Hs as <- <-; nope I0.
      * injection Hs as <- <-; nope I0.
      * injection Hs as <- <-; nope I0.
      * destruct (the_list s0 (z_cur s0)); injection Hs as <- <-; nope I0.
      * injection Hs as <- <-; nope I0.
      * destruct (nth_error (the_list s0 l0) k0); injection Hs as <- <-; nope I0.
    + exact (Q w eq_refl).
    + destruct (nth_error (z_srv s0) v) as [x|]; [|injection Hs as <- <-; nope I0]. unfold rstep in Hs.
      destruct (v_pc x); try (injection Hs as <- <-; nope I0; fail).
      * destruct (v_open x); [destruct (v_queue x)|]; injection Hs as <- <-; nope I0.
      * injection Hs as <- <-. destruct (v_obs x); nope I0.
    + destruct (nth_error (z_srv s0) v) as [x|]; [|injection Hs as <- <-; nope I0].
      destruct (v_open x); injection Hs as <- <-; nope I0.
  - intros t Ht w ->. exact (NF w Ht).
Qed.

Definition goes (n u : nat) (s s1 : sst) : Prop := exists l e, only_thread u l /\ zrun n s l = (s1, e).
Lemma goes_refl : forall n u s, goes n u s s.
Proof. intros. exists [], []. split; [intros t []|reflexivity]. Qed.
Lemma goes_trans : forall n u s1 s2 s3, goes n u s1 s2 -> goes n u s2 s3 -> goes n u s1 s3.
Proof.
  intros n u s1 s2 s3 (l1 & e1 & O1 & R1) (l2 & e2 & O2 & R2). exists (l1 ++ l2), (e1 ++ e2). split.
  - intros t Ht. apply in_app_or in Ht as [Ht|Ht]; auto.
  - rewrite zrun_app, R1, R2. reflexivity.
Qed.
Lemma goes_go : forall n u s s1 e, zstep n s (TGo u) = (s1, e) -> goes n u s s1.
Proof. intros n u s s1 e H. exists [TGo u], e. split; [intros t [<-|[]]; now left|]. cbn [zrun]. rewrite H. now rewrite app_nil_r. Qed.
Lemma goes_recv : forall n u s v s1 e, zstep n s (TRecv v) = (s1, e) -> goes n u s s1.
Proof. intros n u s v s1 e H. exists [TRecv v], e. split; [intros t [<-|[]]; right; now exists v|]. cbn [zrun]. rewrite H. now rewrite app_nil_r. Qed.
Definition at_ (s : sst) (u : nat) (p : upc) : Prop := nth_error (z_users s) u = Some p.
Definition returns (n u : nat) (s : sst) : Prop := exists s1, goes n u s s1 /\ at_ s1 u UIdle.
Lemma returns_via : forall n u s s1, goes n u s s1 -> returns n u s1 -> returns n u s.
Proof. intros n u s s1 G (s2 & G2 & A). exists s2. split; [exact (goes_trans _ _ _ _ _ G G2)|exact A]. Qed.
Lemma go_at : forall n u s p, at_ s u p -> zstep n s (TGo u) = ustep n s u false p.
Proof. intros n u s p A. cbn [zstep]. unfold at_ in A. now rewrite A. Qed.
Lemma at_set : forall s0 s u p q, at_ s0 u p -> z_users s = z_users s0 -> at_ (set_user u q s) u q.
Proof. intros s0 s u p q A E. unfold at_ in *. cbn [set_user z_users]. rewrite E. exact (nth_put_same' _ _ _ _ A). Qed.

Lemma ret_obs : forall n u m s l k, at_ s u (UObs l k) -> length (the_list s l) - k <= m -> returns n u s.
Proof.
  intros n u m. induction m as [|m IH]; intros s l k A M; pose proof (go_at n u s _ A) as Z; cbn [ustep] in Z;
    destruct (nth_error (the_list s l) k) as [v|] eqn:E.
  - assert (k < length (the_list s l)) by (apply nth_error_Some; congruence). lia.
  - exists (set_user u UIdle s). split; [exact (goes_go _ _ _ _ _ Z)|exact (at_set s s u _ _ A eq_refl)].
  - apply (returns_via _ _ _ _ (goes_go _ _ _ _ _ Z)). apply (IH _ l (S k)).
    + apply (at_set s _ u _ _ A). apply change_users.
    + unfold the_list in *. cbn [set_user z_lists]. rewrite change_lists. 
      assert (k < length (nth l (z_lists s) [])) by (apply nth_error_Some; congruence). lia.
  - exists (set_user u UIdle s). split; [exact (goes_go _ _ _ _ _ Z)|exact (at_set s s u _ _ A eq_refl)].
Qed.
Lemma ret_addr : forall n u s, at_ s u UAddr -> returns n u s.
Proof.
  intros n u s A. pose proof (go_at n u s _ A) as Z; cbn [ustep] in Z. apply (returns_via _ _ _ _ (goes_go _ _ _ _ _ Z)).
  eapply ret_obs; [|apply le_n]. exact (at_set s _ u _ _ A eq_refl).
Qed.
Lemma ret_check : forall n u s, at_ s u UCheck -> returns n u s.
Proof.
  intros n u s A. pose proof (go_at n u s _ A) as Z; cbn [ustep] in Z. destruct (the_list s (z_cur s)).
  - exists (set_user u UIdle s). split; [exact (goes_go _ _ _ _ _ Z)|exact (at_set s s u _ _ A eq_refl)].
  - apply (returns_via _ _ _ _ (goes_go _ _ _ _ _ Z)). apply ret_addr. exact (at_set s s u _ _ A eq_refl).
Qed.
Lemma ret_app : forall n u s i uni v, at_ s u (UAppend i uni v) -> (forall s1, at_ s1 u (next_bind i uni) -> returns n u s1) -> returns n u s.
Proof.
  intros n u s i uni v A R. pose proof (go_at n u s _ A) as Z; cbn [ustep] in Z. apply (returns_via _ _ _ _ (goes_go _ _ _ _ _ Z)).
  apply R. exact (at_set s _ u _ _ A eq_refl).
Qed.
Lemma ret_run : forall n u s i uni v, at_ s u (URun i uni v) -> (forall s1, at_ s1 u (next_bind i uni) -> returns n u s1) -> returns n u s.
Proof.
  intros n u s i uni v A R. pose proof (go_at n u s _ A) as Z; cbn [ustep] in Z. apply (returns_via _ _ _ _ (goes_go _ _ _ _ _ Z)).
  eapply ret_app; [|exact R]. exact (at_set s _ u _ _ A (change_users _ _ _)).
Qed.
Lemma ret_bind : forall n u m s i uni, at_ s u (UBind i uni) -> 2 * (n - i) + (if uni then 1 else 0) <= m -> returns n u s.
Proof.
  intros n u m. induction m as [|m IH]; intros s i uni A M; pose proof (go_at n u s _ A) as Z; cbn [ustep] in Z;
    destruct (Nat.ltb_spec i n) as [L|L].
  - lia.
  - apply (returns_via _ _ _ _ (goes_go _ _ _ _ _ Z)). apply ret_check. exact (at_set s s u _ _ A eq_refl).
  - apply (returns_via _ _ _ _ (goes_go _ _ _ _ _ Z)). eapply ret_run; [exact (at_set s _ u _ _ A eq_refl)|].
    intros s1 A1. destruct uni; cbn [next_bind] in A1; eapply IH; try exact A1; cbn; lia.
  - apply (returns_via _ _ _ _ (goes_go _ _ _ _ _ Z)). apply ret_check. exact (at_set s s u _ _ A eq_refl).
Qed.
Lemma ret_clear : forall n u s c, at_ s u (UClear c) -> returns n u s.
Proof.
  intros n u s c A. pose proof (go_at n u s _ A) as Z; cbn [ustep] in Z. destruct c.
  - apply (returns_via _ _ _ _ (goes_go _ _ _ _ _ Z)). eapply ret_bind; [|apply le_n]. exact (at_set s _ u _ _ A eq_refl).
  - eexists. split; [exact (goes_go _ _ _ _ _ Z)|exact (at_set s _ u _ _ A eq_refl)].
Qed.
(** Server.stop waits for a thread that ends. *)
Lemma recv_step : forall n s v x s1 e, nth_error (z_srv s) v = Some x -> v_open x = false -> zstep n s (TRecv v) = (s1, e) ->
  z_users s1 = z_users s /\ z_lists s1 = z_lists s /\
  nth_error (z_srv s1) v = Some (match v_pc x with RNew | REnd => x | RCheck | RWait => set_vpc REnd x | RTell _ => set_vpc RCheck x end).
Proof.
  intros n s v x s1 e Hx Ho H. cbn [zstep] in H. rewrite Hx in H. unfold rstep in H. rewrite Ho in H.
  destruct (v_pc x); injection H as <- <-; rewrite ?change_users, ?change_lists, ?change_nth, ?Nat.eqb_refl, ?Hx; repeat split; try reflexivity; exact Hx.
Qed.
Lemma ret_join : forall n u c l k m s, wf s -> at_ s u (UJoin c l k) ->
  (forall s1, wf s1 -> at_ s1 u (UStop c l (S k)) -> the_list s1 l = the_list s l -> returns n u s1) ->
  (forall v x, nth_error (the_list s l) k = Some v -> nth_error (z_srv s) v = Some x -> match v_pc x with RTell _ => 2 | RCheck | RWait => 1 | _ => 0 end <= m) ->
  returns n u s.
Proof.
  intros n u c l k m. induction m as [|m IH]; intros s W A R M; destruct (w_join s W u c l k A) as (v & x & Hv & Hx & Ho).
  - specialize (M v x Hv Hx). pose proof (go_at n u s _ A) as Z; cbn [ustep] in Z. rewrite Hv, Hx in Z.
    destruct (v_pc x); try lia.
    + eexists. split; [exact (goes_go _ _ _ _ _ Z)|exact (at_set s _ u _ _ A eq_refl)].
    + apply (returns_via _ _ _ _ (goes_go _ _ _ _ _ Z)). apply R; [|exact (at_set s _ u _ _ A eq_refl)|reflexivity].
      exact (wf_step _ _ _ _ _ W Z).
  - destruct (zstep n s (TRecv v)) as [s1 e1] eqn:Z. destruct (recv_step _ _ _ _ _ _ Hx Ho Z) as (U1 & L1 & V1).
    apply (returns_via _ _ _ _ (goes_recv _ _ _ _ _ _ Z)). apply IH.
    + exact (wf_step _ _ _ _ _ W Z).
    + unfold at_ in *. now rewrite U1.
    + intros s2 W2 A2 E2. apply R; auto. rewrite E2. unfold the_list. now rewrite L1.
    + intros v' x' Hv' Hx'. unfold the_list in Hv'. rewrite L1 in Hv'. fold (the_list s l) in Hv'. assert (v' = v) as -> by congruence.
      specialize (M v x Hv Hx). rewrite V1 in Hx'. injection Hx' as <-. destruct (v_pc x) eqn:Ep; cbn; rewrite ?Ep; lia.
Qed.
Lemma ret_stop : forall n u m s c l k, wf s -> at_ s u (UStop c l k) -> length (the_list s l) - k <= m -> returns n u s.
Proof.
  intros n u m. induction m as [|m IH]; intros s c l k W A M; pose proof (go_at n u s _ A) as Z; cbn [ustep] in Z;
    destruct (nth_error (the_list s l) k) as [v|] eqn:E.
  - assert (k < length (the_list s l)) by (apply nth_error_Some; congruence). lia.
  - apply (returns_via _ _ _ _ (goes_go _ _ _ _ _ Z)). eapply ret_clear. exact (at_set s _ u _ _ A eq_refl).
  - assert (k < length (the_list s l)) by (apply nth_error_Some; congruence).
    destruct (w_in s W l v (nth_error_In _ _ E)) as (x & Hx & _). rewrite Hx in Z. destruct (v_open x).
    + apply (returns_via _ _ _ _ (goes_go _ _ _ _ _ Z)). assert (W1 := wf_step _ _ _ _ _ W Z).
      eapply (ret_join n u c l k 2); [exact W1|exact (at_set s _ u _ _ A (change_users _ _ _))| |].
      * intros s1 W2 A2 E2. apply (IH s1 c l (S k) W2 A2). rewrite E2. unfold the_list. cbn [set_user z_lists]. rewrite change_lists.
        fold (the_list s l). lia.
      * intros v' x' _ _. destruct (v_pc x'); lia.
    + apply (returns_via _ _ _ _ (goes_go _ _ _ _ _ Z)). apply (IH _ c l (S k)).
      * exact (wf_step _ _ _ _ _ W Z).
      * exact (at_set s _ u _ _ A eq_refl).
      * change (length (the_list s l) - S k <= m). lia.
  - apply (returns_via _ _ _ _ (goes_go _ _ _ _ _ Z)). eapply ret_clear. exact (at_set s _ u _ _ A eq_refl).
Qed.
Lemma L_C99_returns : forall n k l s e u, zrun n (new_sst k) l = (s, e) -> u < k ->
  exists l1 s1 e1, only_thread u l1 /\ zrun n s l1 = (s1, e1) /\ nth_error (z_users s1) u = Some UIdle.
Proof.
  intros n k l s e u H L.
  assert (W := wf_reach _ _ _ _ _ H).
  assert (LU : length (z_users s) = k).
  { apply (zrun_inv n (fun s _ => length (z_users s) = k) (fun _ => True) (new_sst k)) with (l := l) (e := e); auto.
    - cbn. apply repeat_length.
    - intros s0 e0 t s1 e1 E _ Hs. destruct (step_users _ _ _ _ _ Hs) as [SU|(u' & p & q & Hp & SU & UN)]; rewrite SU; [exact E|].
      now rewrite length_put. }
  destruct (nth_error (z_users s) u) as [p|] eqn:Ep; [|apply nth_error_None in Ep; lia].
  assert (returns n u s) as (s1 & (l1 & e1 & O & R) & A); [|exists l1, s1, e1; auto].
  destruct p.
  - exists s. split; [apply goes_refl|exact Ep].
  - eapply ret_stop; [exact W|exact Ep|apply le_n].
  - eapply (ret_join n u c l0 k0 2); [exact W|exact Ep| |].
    + intros s1 W1 A1 _. eapply ret_stop; [exact W1|exact A1|apply le_n].
    + intros v x _ _. destruct (v_pc x); lia.
  - exact (ret_clear _ _ _ _ Ep).
  - eapply ret_bind; [exact Ep|apply le_n].
  - eapply ret_run; [exact Ep|]. intros s1 A1. destruct uni; eapply ret_bind; try exact A1; apply le_n.
  - eapply ret_app; [exact Ep|]. intros s1 A1. destruct uni; eapply ret_bind; try exact A1; apply le_n.
  - exact (ret_check _ _ _ Ep).
  - exact (ret_addr _ _ _ Ep).
  - eapply ret_obs; [exact Ep|apply le_n].
Qed.

(** ** One thread that calls start and stop *)
Definition fresh (x : srv) : Prop := running x /\ v_obs x = false.
Definition each (l : list srv) (P : nat -> srv -> Prop) : Prop := forall j x, nth_error l j = Some x -> P j x.
Definition phase (n : nat) (s : sst) (e : list ev) (old new pend : list srv) (p : upc) : Prop :=
  match p with
  | UIdle => pend = [] /\
     ((last_call e = Some (EBack 0 CStart true) /\ map kind new = all_servers n /\ z_addr s = Some (Some 0) /\
         each new (fun _ x => running x /\ v_obs x = true)) \/
      ((last_call e = None \/ last_call e = Some (EBack 0 CStop true) \/ (last_call e = Some (EBack 0 CStart false) /\ n = 0)) /\ new = []) \/
      (last_call e = Some (ERaise 0) /\ each new (fun _ => fresh)))
  | UStop c l k => last_call e = Some (ECall 0 c) /\ pend = [] /\ l = z_cur s /\ k <= length new /\
      each new (fun j x => (j < k -> ended x) /\ (k <= j -> v_open x = true))
  | UJoin c l k => last_call e = Some (ECall 0 c) /\ pend = [] /\ l = z_cur s /\ k < length new /\
      each new (fun j x => (j < k -> ended x) /\ (j = k -> v_open x = false) /\ (k < j -> v_open x = true))
  | UClear c => last_call e = Some (ECall 0 c) /\ pend = [] /\ each new (fun _ => ended)
  | UBind i uni => last_call e = Some (ECall 0 CStart) /\ pend = [] /\ length new = 2 * i + (if uni then 0 else 1) /\
      (if uni then i <= n else i < n) /\ each new (fun _ => fresh)
  | URun i uni v => last_call e = Some (ECall 0 CStart) /\ v = length old + length new /\ length new = 2 * i + (if uni then 0 else 1) /\ i < n /\
      each new (fun _ => fresh) /\ exists x, pend = [x] /\ kind x = (i, uni) /\ v_open x = true /\ v_obs x = false /\ v_pc x = RNew
  | UAppend i uni v => last_call e = Some (ECall 0 CStart) /\ v = length old + length new /\ length new = 2 * i + (if uni then 0 else 1) /\ i < n /\
      each new (fun _ => fresh) /\ exists x, pend = [x] /\ kind x = (i, uni) /\ fresh x
  | UCheck => last_call e = Some (ECall 0 CStart) /\ pend = [] /\ length new = 2 * n /\ each new (fun _ => fresh)
  | UAddr => last_call e = Some (ECall 0 CStart) /\ pend = [] /\ length new = 2 * n /\ 0 < n /\ each new (fun _ => fresh)
  | UObs l k => last_call e = Some (ECall 0 CStart) /\ pend = [] /\ l = z_cur s /\ length new = 2 * n /\ k <= length new /\ z_addr s = Some (Some 0) /\
      each new (fun j x => running x /\ (j < k -> v_obs x = true))
  end.
Definition inv1 (n : nat) (s : sst) (e : list ev) (old new pend : list srv) (p : upc) : Prop :=
  z_srv s = old ++ new ++ pend /\ the_list s (z_cur s) = seq (length old) (length new) /\ z_cur s < length (z_lists s) /\
  z_users s = [p] /\ each old (fun _ => ended) /\ map kind new = firstn (length new) (all_servers n) /\
  each new (fun _ x => v_obs x = true -> z_addr s = Some (Some 0) /\ map kind new = all_servers n) /\
  phase n s e old new pend p.
Definition inv (n : nat) (s : sst) (e : list ev) : Prop := exists old new pend p, inv1 n s e old new pend p.

(** *** Receiving threads *)
Definition sim (x x' : srv) : Prop := kind x' = kind x /\ v_open x' = v_open x /\ v_obs x' = v_obs x /\
  (v_pc x' = RNew <-> v_pc x = RNew) /\ (v_pc x = REnd -> v_pc x' = REnd) /\ (v_pc x' = REnd -> v_pc x = REnd \/ v_open x = false).
Lemma sim_refl : forall x, sim x x.
Proof. intros x. unfold sim. intuition. Qed.
Lemma sim_put : forall l v x x', nth_error l v = Some x -> sim x x' -> Forall2 sim l (put l v x').
Proof.
  induction l as [|y l IH]; intros [|v] x x' H S; cbn in *; try discriminate.
  - injection H as ->. constructor; [exact S|]. clear. induction l; constructor; auto using sim_refl.
  - constructor; [apply sim_refl|eauto].
Qed.
Lemma sims_refl : forall l, Forall2 sim l l.
Proof. induction l; constructor; auto using sim_refl. Qed.
Lemma sim_each : forall l l' (P : nat -> srv -> Prop), Forall2 sim l l' -> (forall j x x', sim x x' -> P j x -> P j x') -> each l P -> each l' P.
Proof.
  intros l l' P F Q E j x' H. revert j P Q E H. induction F as [|x y l l' Sx F IH]; intros [|j] P Q E H; cbn in H; try discriminate.
  - injection H as <-. apply (Q 0 x y Sx). now apply E.
  - apply (IH j (fun j => P (S j))); [intros i; apply Q| |exact H]. intros i z Hz. exact (E (S i) z Hz).
Qed.
Lemma sim_kind : forall l l', Forall2 sim l l' -> map kind l' = map kind l.
Proof. intros l l' F. induction F as [|x y l l' S F IH]; cbn; [reflexivity|]. destruct S as [S _]. now rewrite S, IH. Qed.
Lemma sim_len : forall l l', Forall2 sim l l' -> length l' = length l.
Proof. intros l l' F. induction F; cbn; congruence. Qed.
Lemma sim_ended : forall x x', sim x x' -> ended x -> ended x'.
Proof. intros x x' (K & O & B & N & E1 & E2) [A1 A2]. split; [congruence|auto]. Qed.
Lemma sim_running : forall x x', sim x x' -> running x -> running x'.
Proof.
  intros x x' (K & O & B & N & E1 & E2) (A1 & A2 & A3). split; [congruence|]. split; [intuition|].
  intros E. destruct (E2 E); congruence.
Qed.
Lemma sim_obs : forall x x', sim x x' -> v_obs x' = v_obs x.
Proof. intros x x' (K & O & B & _). exact B. Qed.
Lemma sim_open : forall x x', sim x x' -> v_open x' = v_open x.
Proof. intros x x' (K & O & B & _). exact O. Qed.
Lemma sim_fresh : forall x x', sim x x' -> fresh x -> fresh x'.
Proof. intros x x' S [R O]. split; [exact (sim_running x x' S R)|]. now rewrite (sim_obs x x' S). Qed.
Lemma step_sim : forall n s t s1 e1, (match t with TRecv _ | TArrive _ _ => True | _ => False end) -> zstep n s t = (s1, e1) ->
  Forall2 sim (z_srv s) (z_srv s1) /\ z_lists s1 = z_lists s /\ z_cur s1 = z_cur s /\ z_addr s1 = z_addr s /\ z_users s1 = z_users s /\
  filter is_call e1 = [].
Proof.
  intros n s t s1 e1 T H.
  assert (CH : forall v x f, nth_error (z_srv s) v = Some x -> sim x (f x) -> s1 = change v f s ->
    Forall2 sim (z_srv s) (z_srv s1) /\ z_lists s1 = z_lists s /\ z_cur s1 = z_cur s /\ z_addr s1 = z_addr s /\ z_users s1 = z_users s).
  { intros v x f Hx S ->. rewrite change_lists, change_cur, change_addr, change_users. split; [|auto].
    rewrite change_srv, Hx. exact (sim_put _ _ _ _ Hx S). }
  assert (ID : s1 = s -> Forall2 sim (z_srv s) (z_srv s1) /\ z_lists s1 = z_lists s /\ z_cur s1 = z_cur s /\ z_addr s1 = z_addr s /\ z_users s1 = z_users s).
  { intros ->. split; [apply sims_refl|auto]. }
  enough ((Forall2 sim (z_srv s) (z_srv s1) /\ z_lists s1 = z_lists s /\ z_cur s1 = z_cur s /\ z_addr s1 = z_addr s /\ z_users s1 = z_users s) /\ filter is_call e1 = []) by intuition.
  destruct t as [| | |v|v d]; try destruct T; cbn [zstep] in H; (destruct (nth_error (z_srv s) v) as [x|] eqn:Ex; [|injection H as <- <-; split; [apply ID; reflexivity|reflexivity]]).
  - unfold rstep in H. destruct (v_pc x) as [| | |d|] eqn:Ep.
    + injection H as <- <-; split; [apply ID; reflexivity|reflexivity].
    + injection H as <- <-. split; [|reflexivity]. eapply CH; [exact Ex| |reflexivity].
      unfold sim; cbn. rewrite Ep. destruct (v_open x) eqn:Eo; repeat split; auto; discriminate.
    + destruct (v_open x) eqn:Eo; [destruct (v_queue x) as [|d q] eqn:Eq|]; injection H as <- <-; (split; [|reflexivity]).
      * apply ID; reflexivity.
      * eapply CH; [exact Ex| |reflexivity]. unfold sim; cbn. rewrite Ep. repeat split; auto; discriminate.
      * eapply CH; [exact Ex| |reflexivity]. unfold sim; cbn. rewrite Ep. repeat split; auto; discriminate.
    + injection H as <- <-. split; [|destruct (v_obs x); reflexivity]. eapply CH; [exact Ex| |reflexivity].
      unfold sim; cbn. rewrite Ep. repeat split; auto; discriminate.
    + injection H as <- <-; split; [apply ID; reflexivity|reflexivity].
  - destruct (v_open x) eqn:Eo; injection H as <- <-; (split; [|reflexivity]); [|apply ID; reflexivity].
    eapply CH; [exact Ex| |reflexivity]. unfold sim; cbn. repeat split; auto.
Qed.
Lemma last_call_app : forall e e1, last_call (e ++ e1) = match last_call e1 with Some x => Some x | None => last_call e end.
Proof.
  intros e e1. unfold last_call. rewrite filter_app, rev_app_distr. destruct (rev (filter is_call e1)); reflexivity.
Qed.
Lemma last_call_quiet : forall e e1, filter is_call e1 = [] -> last_call (e ++ e1) = last_call e.
Proof. intros e e1 H. rewrite last_call_app. unfold last_call at 1. now rewrite H. Qed.
Lemma inv_quiet : forall n s e s1 e1, inv n s e -> Forall2 sim (z_srv s) (z_srv s1) -> z_lists s1 = z_lists s -> z_cur s1 = z_cur s ->
  z_addr s1 = z_addr s -> z_users s1 = z_users s -> last_call e1 = last_call e -> inv n s1 e1.
Proof.
  intros n s e s1 e1 (old & new & pend & p & Hs & Hl & Hc & Hu & Ho & Hk & Ha & Hp) F L C A U LC.
  rewrite Hs in F. apply Forall2_app_inv_l in F as (old1 & r & F1 & F & E1). apply Forall2_app_inv_l in F as (new1 & pend1 & F2 & F3 & ->).
  assert (LO := sim_len _ _ F1). assert (LN := sim_len _ _ F2). assert (KN := sim_kind _ _ F2).
  exists old1, new1, pend1, p. unfold inv1. rewrite LO, LN, KN, A, U, C. unfold the_list in *. rewrite L.
  split; [exact E1|]. split; [exact Hl|]. split; [exact Hc|]. split; [exact Hu|].
  split; [exact (sim_each _ _ _ F1 (fun _ => sim_ended) Ho)|]. split; [exact Hk|].
  split.
  { apply (sim_each _ _ _ F2) with (2 := Ha). intros _ x x' S P. rewrite (sim_obs x x' S). exact P. }
  assert (P0 : pend = [] -> pend1 = []) by (intros ->; inversion F3; reflexivity).
  assert (EF : each new (fun _ => fresh) -> each new1 (fun _ => fresh)) by exact (sim_each _ _ _ F2 (fun _ => sim_fresh)).
  destruct p; cbn [phase] in *; rewrite ?LC, ?LO, ?LN, ?KN, ?A, ?C.
  - destruct Hp as [Q1 [(Q2 & Q3 & Q4 & Q5)|[(Q2 & Q3)|(Q2 & Q3)]]]; (split; [auto|]); [left|right; left|right; right]; repeat split; auto.
    + destruct (sim_each _ _ (fun _ x => running x /\ v_obs x = true) F2) with (j := j) (x := x) as [[B1 _] _]; auto.
      intros _ y y' S [R O]. split; [exact (sim_running _ _ S R)|]. now rewrite (sim_obs _ _ S).
    + destruct (sim_each _ _ (fun _ x => running x /\ v_obs x = true) F2) with (j := j) (x := x) as [[_ [B1 _]] _]; auto.
      intros _ y y' S [R O]. split; [exact (sim_running _ _ S R)|]. now rewrite (sim_obs _ _ S).
    + destruct (sim_each _ _ (fun _ x => running x /\ v_obs x = true) F2) with (j := j) (x := x) as [[_ [_ B1]] _]; auto.
      intros _ y y' S [R O]. split; [exact (sim_running _ _ S R)|]. now rewrite (sim_obs _ _ S).
    + destruct (sim_each _ _ (fun _ x => running x /\ v_obs x = true) F2) with (j := j) (x := x) as [_ B1]; auto.
      intros _ y y' S [R O]. split; [exact (sim_running _ _ S R)|]. now rewrite (sim_obs _ _ S).
    + rewrite Q3 in F2. now inversion F2.
    + destruct (EF Q3 j x H) as [[B1 _] _]. exact B1.
    + destruct (EF Q3 j x H) as [[_ [B1 _]] _]. exact B1.
    + destruct (EF Q3 j x H) as [[_ [_ B1]] _]. exact B1.
    + destruct (EF Q3 j x H) as [_ B1]. exact B1.
  - destruct Hp as (Q1 & Q2 & Q3 & Q4 & Q5). split; [exact Q1|]. split; [auto|]. split; [exact Q3|]. split; [exact Q4|].
    apply (sim_each _ _ _ F2) with (2 := Q5). intros j x x' S [P1 P2]. split; intros J; [exact (sim_ended _ _ S (P1 J))|].
    rewrite (sim_open _ _ S). auto.
  - destruct Hp as (Q1 & Q2 & Q3 & Q4 & Q5). split; [exact Q1|]. split; [auto|]. split; [exact Q3|]. split; [exact Q4|].
    apply (sim_each _ _ _ F2) with (2 := Q5). intros j x x' S (P1 & P2 & P3). rewrite (sim_open _ _ S).
    split; [intros J; exact (sim_ended _ _ S (P1 J))|]. split; auto.
  - destruct Hp as (Q1 & Q2 & Q3). split; [exact Q1|]. split; [auto|]. exact (sim_each _ _ _ F2 (fun _ => sim_ended) Q3).
  - destruct Hp as (Q1 & Q2 & Q3 & Q4 & Q5). split; [exact Q1|]. split; [auto|]. auto.
  - destruct Hp as (Q1 & Q2 & Q3 & Q4 & Q5 & x & -> & Q6 & Q7 & Q8 & Q9). split; [exact Q1|]. split; [auto|]. split; [exact Q3|]. split; [exact Q4|].
    split; [auto|]. inversion F3 as [|? x' ? ? S F4]; subst. inversion F4; subst. exists x'. destruct S as (S1 & S2 & S3 & S4 & _).
    repeat split; [congruence|congruence|congruence|tauto].
  - destruct Hp as (Q1 & Q2 & Q3 & Q4 & Q5 & x & -> & Q6 & Q7). split; [exact Q1|]. split; [auto|]. split; [exact Q3|]. split; [exact Q4|].
    split; [auto|]. inversion F3 as [|? x' ? ? S F4]; subst. inversion F4; subst. exists x'. split; [reflexivity|].
    split; [destruct S as (S1 & _); congruence|exact (sim_fresh _ _ S Q7)].
  - destruct Hp as (Q1 & Q2 & Q3 & Q4). auto.
  - destruct Hp as (Q1 & Q2 & Q3 & Q4 & Q5). split; [exact Q1|]. auto.
  - destruct Hp as (Q1 & Q2 & Q3 & Q4 & Q5 & Q6 & Q7). split; [exact Q1|]. split; [auto|]. split; [exact Q3|]. split; [exact Q4|]. split; [exact Q5|].
    split; [exact Q6|]. apply (sim_each _ _ _ F2) with (2 := Q7). intros j x x' S [P1 P2]. split; [exact (sim_running _ _ S P1)|].
    rewrite (sim_obs _ _ S). exact P2.
Qed.

(** *** The calling thread *)
Lemma put_app2 {A} (a b : list A) k y : put (a ++ b) (length a + k) y = a ++ put b k y.
Proof. induction a as [|x a IH]; cbn; [reflexivity|]. now rewrite IH. Qed.
Lemma nth_app2 {A} (a b : list A) k : nth_error (a ++ b) (length a + k) = nth_error b k.
Proof. induction a as [|x a IH]; cbn; auto. Qed.
Lemma nth_seq a len k : nth_error (seq a len) k = if Nat.ltb k len then Some (a + k) else None.
Proof.
  destruct (Nat.ltb_spec k len) as [L|L].
  - rewrite (nth_error_nth' _ 0) by (rewrite seq_length; exact L). rewrite seq_nth by exact L. reflexivity.
  - apply nth_error_None. rewrite seq_length. exact L.
Qed.
Lemma all_len n : length (all_servers n) = 2 * n.
Proof.
  unfold all_servers. enough (G : forall m a, length (flat_map (fun i => [(i, true); (i, false)]) (seq a m)) = 2 * m) by apply G.
  induction m as [|m IH]; intros a; [reflexivity|]. cbn [seq flat_map app length]. rewrite IH. lia.
Qed.
Lemma all_nth n i (uni : bool) : i < n -> nth_error (all_servers n) (2 * i + (if uni then 0 else 1)) = Some (i, uni).
Proof.
  unfold all_servers. intros L.
  enough (G : forall m a j, j < m -> nth_error (flat_map (fun i => [(i, true); (i, false)]) (seq a m)) (2 * j + (if uni then 0 else 1)) = Some (a + j, uni))
    by (rewrite (G n 0 i L); reflexivity).
  induction m as [|m IH]; intros a j J; [lia|]. cbn [seq flat_map app]. destruct j as [|j].
  - rewrite Nat.add_0_r. destruct uni; reflexivity.
  - replace (2 * S j + (if uni then 0 else 1)) with (S (S (2 * j + (if uni then 0 else 1)))) by lia. cbn [nth_error].
    rewrite IH by lia. f_equal. f_equal. lia.
Qed.
Lemma firstn_snoc {A} (l : list A) k x : nth_error l k = Some x -> firstn (S k) l = firstn k l ++ [x].
Proof. revert k; induction l as [|y l IH]; intros [|k] H; cbn in *; try discriminate; [congruence|]. f_equal. now apply IH. Qed.
Lemma each_put : forall l k x y (P Q : nat -> srv -> Prop), nth_error l k = Some x -> each l P ->
  (forall j z, j <> k -> P j z -> Q j z) -> Q k y -> each (put l k y) Q.
Proof.
  intros l k x y P Q H E A B j z Hz. apply nth_put_cases in Hz as [[-> ->]|[N Hz]]; auto.
Qed.
Lemma kind_put : forall l k x y, nth_error l k = Some x -> kind y = kind x -> map kind (put l k y) = map kind l.
Proof.
  induction l as [|z l IH]; intros [|k] x y H K; cbn in *; try discriminate; [congruence|]. f_equal. eauto.
Qed.
Lemma last_one : forall e x, is_call x = true -> last_call (e ++ [x]) = Some x.
Proof. intros e x H. rewrite last_call_app. unfold last_call at 1. cbn. now rewrite H. Qed.

Lemma inv_go : forall n s e s1 e1 f old new pend p, wf s -> inv1 n s e old new pend p ->
  (f = true -> exists i uni, p = UBind i uni) -> ustep n s 0 f p = (s1, e1) -> inv n s1 (e ++ e1).
Proof.
  intros n s e s1 e1 f old new pend p W I Hf H.
  pose proof I as (Hs & Hl & Hc & Hu & Ho & Hk & Ha & Hp).
  assert (LN : length new = length (map kind new)) by now rewrite map_length.
  destruct p; cbn [ustep] in H; cbn [phase] in Hp.
  - injection H as <- <-. rewrite app_nil_r. exists old, new, pend, UIdle. exact I.
  - destruct Hp as (Q1 & -> & -> & Q4 & Q5). rewrite app_nil_r in Hs.
    rewrite Hl, nth_seq in H. destruct (Nat.ltb_spec k (length new)) as [L|L].
    + rewrite Hs, nth_app2 in H. destruct (nth_error new k) as [x|] eqn:Ex; [|apply nth_error_None in Ex; lia].
      destruct (Q5 k x Ex) as [_ Q6]. rewrite (Q6 (le_n _)) in H. injection H as <- <-. rewrite app_nil_r.
      exists old, (put new k (set_open false x)), [], (UJoin c (z_cur s) k).
      assert (LP := length_put new k (set_open false x)).
      assert (KP := kind_put new k x (set_open false x) Ex eq_refl).
      unfold inv1. cbn [set_user z_srv z_lists z_cur z_users z_addr]. rewrite change_users, change_srv, change_cur, change_lists, change_addr, Hs, nth_app2, Ex, put_app2, app_nil_r, LP, KP.
      split; [reflexivity|]. split; [unfold the_list in *; cbn [set_user z_lists]; rewrite change_lists; exact Hl|]. split; [exact Hc|]. split; [rewrite Hu; reflexivity|].
      split; [exact Ho|]. split; [exact Hk|]. split.
      { apply (each_put new k x _ _ _ Ex Ha); [auto|]. exact (Ha k x Ex). }
      cbn [phase set_user z_cur]. rewrite change_cur. repeat match goal with |- _ /\ _ => split; [assumption || reflexivity || (rewrite LP; exact L)|] end.
      apply (each_put new k x _ _ _ Ex Q5).
      * intros j z N [P1 P2]. split; [auto|]. split; [intros ->; contradiction|intros J; apply P2; lia].
      * split; [lia|]. split; [reflexivity|lia].
    + injection H as <- <-. rewrite app_nil_r. exists old, new, [], (UClear c).
      unfold inv1. cbn [set_user z_srv z_lists z_cur z_users z_addr]. rewrite app_nil_r, Hu. repeat match goal with |- _ /\ _ => split; [assumption || reflexivity|] end.
      cbn [phase]. split; [exact Q1|]. split; [reflexivity|]. intros j x Hx. apply (Q5 j x Hx).
      assert (j < length new) by (apply nth_error_Some; congruence). lia.
  - destruct Hp as (Q1 & -> & -> & Q4 & Q5). rewrite app_nil_r in Hs.
    rewrite Hl, nth_seq in H. destruct (Nat.ltb_spec k (length new)) as [L|L]; [|lia].
    rewrite Hs, nth_app2 in H. destruct (nth_error new k) as [x|] eqn:Ex; [|apply nth_error_None in Ex; lia].
    destruct (w_in s W (z_cur s) (length old + k)) as (x' & Hx' & NP).
    { rewrite Hl. apply in_seq. lia. }
    rewrite Hs, nth_app2, Ex in Hx'. injection Hx' as <-.
    assert (ST : s1 = s -> e1 = [] -> inv n s1 (e ++ e1)).
    { intros -> ->. rewrite app_nil_r. exists old, new, [], (UJoin c (z_cur s) k). exact I. }
    destruct (v_pc x) eqn:Ep; [contradiction|apply ST; congruence|apply ST; congruence|apply ST; congruence|].
    injection H as <- <-. rewrite app_nil_r. exists old, new, [], (UStop c (z_cur s) (S k)).
    unfold inv1. cbn [set_user z_srv z_lists z_cur z_users z_addr]. rewrite app_nil_r, Hu. repeat match goal with |- _ /\ _ => split; [assumption || reflexivity|] end.
    cbn [phase set_user z_cur]. repeat match goal with |- _ /\ _ => split; [assumption || reflexivity|] end.
    intros j z Hz. destruct (Q5 j z Hz) as (P1 & P2 & P3). split; [|intros J; apply P3; lia].
    intros J. destruct (Nat.eq_dec j k) as [->|N]; [|apply P1; lia]. assert (z = x) as -> by congruence. split; [auto|exact Ep].
  - destruct Hp as (Q1 & -> & Q3). rewrite app_nil_r in Hs.
    set (s' := mksst (z_srv s) (z_lists s ++ [[]]) (length (z_lists s)) (z_addr s) (z_users s)) in *.
    assert (TL : the_list s' (z_cur s') = []).
    { unfold the_list, s'; cbn. rewrite app_nth2 by lia. rewrite Nat.sub_diag. reflexivity. }
    assert (EO : each (old ++ new) (fun _ => ended)).
    { intros j x Hx. destruct (Nat.lt_ge_cases j (length old)).
      - rewrite nth_error_app1 in Hx by assumption. exact (Ho j x Hx).
      - rewrite nth_error_app2 in Hx by assumption. exact (Q3 _ x Hx). }
    assert (E0 : forall P, each [] P) by (intros P [|j] x Hx; discriminate).
    assert (G : forall q ee, phase n (set_user 0 q s') ee (old ++ new) [] [] q -> inv n (set_user 0 q s') ee).
    { intros q ee PH. exists (old ++ new), [], [], q. unfold inv1. cbn [set_user z_srv z_lists z_cur z_users z_addr].
      rewrite app_nil_r. split; [exact Hs|]. split; [exact TL|]. split; [cbn; rewrite app_length; cbn; lia|].
      split; [cbn; rewrite Hu; reflexivity|]. split; [exact EO|]. split; [reflexivity|]. split; [apply E0|exact PH]. }
    destruct c; injection H as <- <-; apply G; cbn [phase].
    + rewrite app_nil_r. repeat match goal with |- _ /\ _ => split; [assumption || reflexivity|] end. split; [lia|]. apply E0.
    + split; [reflexivity|]. right. left. split; [|reflexivity]. right. left. now apply last_one.
  - destruct Hp as (Q1 & -> & Q3 & Q4 & Q5). rewrite app_nil_r in Hs.
    destruct (Nat.ltb_spec i n) as [L|L]; [destruct f|].
    + injection H as <- <-. exists old, new, [], UIdle.
      unfold inv1. cbn [set_user z_srv z_lists z_cur z_users z_addr]. rewrite app_nil_r, Hu. repeat match goal with |- _ /\ _ => split; [assumption || reflexivity|] end.
      cbn [phase]. split; [reflexivity|]. right. right. split; [now apply last_one|exact Q5].
    + injection H as <- <-. rewrite app_nil_r.
      exists old, new, [mksrv i uni true false [] RNew], (URun i uni (length (z_srv s))).
      unfold inv1. cbn [set_user set_srv z_srv z_lists z_cur z_users z_addr]. rewrite Hu, app_assoc. rewrite <- Hs.
      repeat match goal with |- _ /\ _ => split; [assumption || reflexivity|] end.
      cbn [phase]. rewrite Hs, app_length. repeat match goal with |- _ /\ _ => split; [assumption || reflexivity|] end.
      eexists. repeat split; reflexivity.
    + injection H as <- <-. rewrite app_nil_r. exists old, new, [], UCheck.
      unfold inv1. cbn [set_user z_srv z_lists z_cur z_users z_addr]. rewrite app_nil_r, Hu. repeat match goal with |- _ /\ _ => split; [assumption || reflexivity|] end.
      cbn [phase]. destruct uni; [|lia]. assert (i = n) as -> by lia. repeat match goal with |- _ /\ _ => split; [assumption || reflexivity || lia|] end. exact Q5.
  - destruct Hp as (Q1 & -> & Q3 & Q4 & Q5 & x & -> & K1 & K2 & K3 & K4).
    injection H as <- <-. rewrite app_nil_r. exists old, new, [set_vpc RCheck x], (UAppend i uni (length old + length new)).
    unfold inv1. cbn [set_user z_srv z_lists z_cur z_users z_addr]. rewrite change_users, change_srv, change_cur, change_lists, change_addr, Hu.
    assert (EN : nth_error (z_srv s) (length old + length new) = Some x).
    { rewrite Hs, nth_app2. replace (length new) with (length new + 0) by lia. rewrite nth_app2. reflexivity. }
    rewrite EN. split.
    { rewrite Hs, put_app2. replace (length new) with (length new + 0) at 1 by lia. rewrite put_app2. reflexivity. }
    split; [unfold the_list in *; cbn [set_user z_lists]; rewrite change_lists; exact Hl|]. repeat match goal with |- _ /\ _ => split; [assumption || reflexivity|] end.
    cbn [phase]. repeat match goal with |- _ /\ _ => split; [assumption || reflexivity|] end. exists (set_vpc RCheck x). repeat split; auto; discriminate.
  - destruct Hp as (Q1 & -> & Q3 & Q4 & Q5 & x & -> & K1 & K2).
    injection H as <- <-. rewrite app_nil_r. exists old, (new ++ [x]), [], (next_bind i uni).
    unfold inv1. cbn [set_user z_srv z_lists z_cur z_users z_addr]. rewrite Hu, app_length. cbn [length].
    assert (EN : each (new ++ [x]) (fun _ => fresh)).
    { intros j y Hy. destruct (Nat.lt_ge_cases j (length new)).
      - rewrite nth_error_app1 in Hy by assumption. exact (Q5 j y Hy).
      - rewrite nth_error_app2 in Hy by assumption. destruct (j - length new) as [|[|?]]; cbn in Hy; try discriminate. now injection Hy as <-. }
    split; [now rewrite app_nil_r|]. split.
    { unfold the_list at 1. cbn [set_user z_lists z_cur]. rewrite nth_nil_nth, nth_put, Nat.eqb_refl.
      destruct (nth_error (z_lists s) (z_cur s)) eqn:E; [|apply nth_error_None in E; lia].
      rewrite Hl, seq_app. reflexivity. }
    split; [rewrite length_put; exact Hc|]. split; [reflexivity|]. split; [exact Ho|]. split.
    { rewrite map_app, Hk. cbn [map]. rewrite K1, Nat.add_1_r. symmetry. apply firstn_snoc. rewrite Q3. now apply all_nth. }
    split.
    { intros j y Hy O. destruct (EN j y Hy) as [_ O']. congruence. }
    destruct uni; cbn [next_bind phase]; (split; [exact Q1|]); (split; [reflexivity|]); rewrite app_length; cbn [length];
      (split; [lia|]); (split; [lia|]); exact EN.
  - destruct Hp as (Q1 & -> & Q3 & Q4). rewrite app_nil_r in Hs. rewrite Hl in H.
    destruct (length new) as [|m] eqn:EL; cbn [seq] in H; injection H as <- <-.
    + exists old, new, [], UIdle. unfold inv1. cbn [set_user z_srv z_lists z_cur z_users z_addr].
      rewrite app_nil_r, Hu, EL. repeat match goal with |- _ /\ _ => split; [assumption || reflexivity|] end.
      cbn [phase]. split; [reflexivity|]. right. left. split; [|now destruct new]. right. right. split; [now apply last_one|lia].
    + rewrite app_nil_r. exists old, new, [], UAddr. unfold inv1. cbn [set_user z_srv z_lists z_cur z_users z_addr].
      rewrite app_nil_r, Hu, EL. repeat match goal with |- _ /\ _ => split; [assumption || reflexivity|] end.
      cbn [phase]. rewrite EL. repeat match goal with |- _ /\ _ => split; [assumption || reflexivity || lia|] end. exact Q4.
  - destruct Hp as (Q1 & -> & Q3 & Q4 & Q5). rewrite app_nil_r in Hs.
    injection H as <- <-. rewrite app_nil_r. exists old, new, [], (UObs (z_cur s) 0).
    assert (KA : map kind new = all_servers n) by (rewrite Hk, Q3, <- (all_len n); apply firstn_all).
    assert (FU : first_uni s (the_list s (z_cur s)) = Some 0).
    { rewrite Hl. destruct new as [|x new']; [cbn in Q3; lia|]. cbn [length seq].
      assert (E : nth_error (z_srv s) (length old) = Some x).
      { rewrite Hs. replace (length old) with (length old + 0) by lia. rewrite nth_app2. reflexivity. }
      assert (K : kind x = (0, true)).
      { pose proof (all_nth n 0 true Q4) as N0. rewrite <- KA in N0. cbn in N0. congruence. }
      unfold first_uni. cbn [find]. rewrite E. unfold kind in K. injection K as K1 K2. rewrite K2, E, K1. reflexivity. }
    unfold inv1. cbn [set_user z_srv z_lists z_cur z_users z_addr].
    rewrite app_nil_r, Hu, FU. repeat match goal with |- _ /\ _ => split; [assumption || reflexivity|] end. split.
    { intros j y Hy O. destruct (Q5 j y Hy) as [_ O']. congruence. }
    cbn [phase set_user z_cur z_addr]. repeat match goal with |- _ /\ _ => split; [assumption || reflexivity || lia|] end.
    intros j y Hy. destruct (Q5 j y Hy) as [R _]. split; [exact R|lia].
  - destruct Hp as (Q1 & -> & -> & Q4 & Q5 & Q6 & Q7). rewrite app_nil_r in Hs.
    assert (KA : map kind new = all_servers n) by (rewrite Hk, Q4, <- (all_len n); apply firstn_all).
    rewrite Hl, nth_seq in H. destruct (Nat.ltb_spec k (length new)) as [L|L].
    + injection H as <- <-. destruct (nth_error new k) as [x|] eqn:Ex; [|apply nth_error_None in Ex; lia].
      rewrite app_nil_r. exists old, (put new k (set_obs true x)), [], (UObs (z_cur s) (S k)).
      assert (LP := length_put new k (set_obs true x)).
      assert (KP := kind_put new k x (set_obs true x) Ex eq_refl).
      unfold inv1. cbn [set_user z_srv z_lists z_cur z_users z_addr]. rewrite change_users, change_srv, change_cur, change_lists, change_addr, Hs, nth_app2, Ex, put_app2, app_nil_r, LP, KP.
      split; [reflexivity|]. split; [unfold the_list in *; cbn [set_user z_lists]; rewrite change_lists; exact Hl|]. split; [exact Hc|]. split; [rewrite Hu; reflexivity|].
      split; [exact Ho|]. split; [exact Hk|]. split.
      { intros j y _ _. split; [exact Q6|exact KA]. }
      cbn [phase set_user z_cur z_addr]. rewrite change_cur, change_addr, LP. repeat match goal with |- _ /\ _ => split; [assumption || reflexivity || lia|] end.
      apply (each_put new k x _ _ _ Ex Q7).
      * intros j z N [P1 P2]. split; [exact P1|]. intros J. apply P2. lia.
      * split; [|reflexivity]. exact (proj1 (Q7 k x Ex)).
    + injection H as <- <-. exists old, new, [], UIdle.
      unfold inv1. cbn [set_user z_srv z_lists z_cur z_users z_addr]. rewrite app_nil_r, Hu. repeat match goal with |- _ /\ _ => split; [assumption || reflexivity|] end.
      cbn [phase]. split; [reflexivity|]. left. split; [now apply last_one|]. split; [exact KA|]. split; [exact Q6|].
      intros j x Hx. destruct (Q7 j x Hx) as [R O]. split; [exact R|]. apply O.
      assert (j < length new) by (apply nth_error_Some; congruence). lia.
Qed.

Lemma inv_new : forall n, inv n (new_sst 1) [].
Proof.
  intros n. exists [], [], [], UIdle.
  assert (E0 : forall P, each [] P) by (intros P [|j] x Hx; discriminate).
  unfold inv1. repeat match goal with |- _ /\ _ => split; [reflexivity || apply E0 || (cbn; lia)|] end.
  cbn [phase]. split; [reflexivity|]. right. left. split; [now left|reflexivity].
Qed.
Lemma inv_step : forall n s e t s1 e1, wf s -> inv n s e -> zstep n s t = (s1, e1) -> inv n s1 (e ++ e1).
Proof.
  intros n s e t s1 e1 W I H.
  assert (ST : s1 = s -> e1 = [] -> inv n s1 (e ++ e1)) by (intros -> ->; now rewrite app_nil_r).
  pose proof I as (old & new & pend & p & I1). pose proof I1 as (Hs & Hl & Hc & Hu & Ho & Hk & Ha & Hp).
  destruct t as [u c|u|u|v|v d].
  - cbn [zstep] in H. rewrite Hu in H. destruct u as [|u]; [|destruct u; apply ST; cbn in H; congruence]. cbn [nth_error] in H.
    destruct p; try (apply ST; congruence). injection H as <- <-.
    cbn [phase] in Hp. destruct Hp as [-> Hp]. rewrite app_nil_r in Hs.
    exists old, new, [], (UStop c (z_cur s) 0). unfold inv1. cbn [set_user z_srv z_lists z_cur z_users z_addr].
    rewrite app_nil_r, Hu. repeat match goal with |- _ /\ _ => split; [assumption || reflexivity|] end.
    cbn [phase set_user z_cur]. split; [now apply last_one|]. repeat match goal with |- _ /\ _ => split; [reflexivity || lia|] end.
    intros j x Hx. split; [lia|]. intros _.
    destruct Hp as [(_ & _ & _ & Q)|[(_ & Q)|(_ & Q)]].
    + exact (proj1 (proj1 (Q j x Hx))).
    + subst new. destruct j; discriminate.
    + exact (proj1 (proj1 (Q j x Hx))).
  - cbn [zstep] in H. rewrite Hu in H. destruct u as [|u]; [|destruct u; apply ST; cbn in H; congruence]. cbn [nth_error] in H.
    apply (inv_go n s e s1 e1 false old new pend p W I1); [discriminate|exact H].
  - cbn [zstep] in H. rewrite Hu in H. destruct u as [|u]; [|destruct u; apply ST; cbn in H; congruence]. cbn [nth_error] in H.
    destruct p; try (apply ST; congruence). apply (inv_go n s e s1 e1 true old new pend _ W I1); [eauto|exact H].
  - destruct (step_sim n s (TRecv v) s1 e1 Logic.I H) as (A1 & A2 & A3 & A4 & A5 & A6).
    apply (inv_quiet n s e); auto. now apply last_call_quiet.
  - destruct (step_sim n s (TArrive v d) s1 e1 Logic.I H) as (A1 & A2 & A3 & A4 & A5 & A6).
    apply (inv_quiet n s e); auto. now apply last_call_quiet.
Qed.
Lemma inv_reach : forall n l s e, zrun n (new_sst 1) l = (s, e) -> inv n s e.
Proof.
  intros n l s e H. enough (wf s /\ inv n s e) by tauto.
  apply (zrun_inv n (fun s e => wf s /\ inv n s e) (fun _ => True) (new_sst 1)) with (l := l); auto.
  - split; [apply wf_new|apply inv_new].
  - intros s0 e0 t s1 e1 [W I] _ Hs. split; [exact (wf_step n s0 t s1 e1 W Hs)|exact (inv_step n s0 e0 t s1 e1 W I Hs)].
Qed.
Lemma each_Forall : forall l (P : srv -> Prop), each l (fun _ => P) <-> Forall P l.
Proof.
  intros l P. split.
  - intros E. apply Forall_forall. intros x Hx. apply In_nth_error in Hx as [j Hx]. exact (E j x Hx).
  - intros F j x Hx. rewrite Forall_forall in F. apply F. exact (nth_error_In _ _ Hx).
Qed.
Lemma filter_none {A} (f : A -> bool) l : Forall (fun x => f x = false) l -> filter f l = [].
Proof. intros F. induction F as [|x l E F IH]; cbn; [reflexivity|]. now rewrite E. Qed.
Lemma filter_all {A} (f : A -> bool) l : Forall (fun x => f x = true) l -> filter f l = l.
Proof. intros F. induction F as [|x l E F IH]; cbn; [reflexivity|]. now rewrite E, IH. Qed.

(** The state between a successful start and the next call. *)
Lemma started_inv : forall n s e, inv n s e -> last_call e = Some (EBack 0 CStart true) ->
  exists old new, z_srv s = old ++ new /\ Forall ended old /\ map kind new = all_servers n /\ z_addr s = Some (Some 0) /\
    Forall (fun x => running x /\ v_obs x = true) new.
Proof.
  intros n s e (old & new & pend & p & Hs & Hl & Hc & Hu & Ho & Hk & Ha & Hp) L.
  destruct p; cbn [phase] in Hp; try (exfalso; destruct Hp as [Q _]; congruence).
  destruct Hp as [-> [(Q2 & Q3 & Q4 & Q5)|[(Q2 & Q3)|(Q2 & Q3)]]].
  - exists old, new. rewrite app_nil_r in Hs. split; [exact Hs|]. split; [now apply each_Forall|]. split; [exact Q3|]. split; [exact Q4|].
    now apply each_Forall in Q5.
  - exfalso. destruct Q2 as [Q2|[Q2|[Q2 _]]]; congruence.
  - congruence.
Qed.
Lemma stopped_inv : forall n s e, inv n s e -> last_call e = Some (EBack 0 CStop true) -> Forall ended (z_srv s).
Proof.
  intros n s e (old & new & pend & p & Hs & Hl & Hc & Hu & Ho & Hk & Ha & Hp) L.
  destruct p; cbn [phase] in Hp; try (exfalso; destruct Hp as [Q _]; congruence).
  destruct Hp as [-> [(Q2 & Q3 & Q4 & Q5)|[(Q2 & ->)|(Q2 & Q3)]]]; try congruence.
  rewrite Hs, !app_nil_r. now apply each_Forall.
Qed.
Lemma L_C99_started : forall n l s e, zrun n (new_sst 1) l = (s, e) -> last_call e = Some (EBack 0 CStart true) ->
  map kind (filter v_open (z_srv s)) = all_servers n /\ z_addr s = Some (Some 0) /\
  Forall (fun x => v_obs x = true /\ v_pc x <> RNew /\ v_pc x <> REnd) (filter v_open (z_srv s)) /\
  Forall (fun x => v_open x = false -> v_pc x = REnd) (z_srv s).
Proof.
  intros n l s e H L. destruct (started_inv n s e (inv_reach n l s e H) L) as (old & new & Hs & Fo & K & A & Fn).
  assert (E : filter v_open (z_srv s) = new).
  { rewrite Hs, filter_app, filter_none, filter_all; [reflexivity| |].
    - eapply Forall_impl; [|exact Fn]. intros x [[O _] _]. exact O.
    - eapply Forall_impl; [|exact Fo]. intros x [O _]. exact O. }
  rewrite E. split; [exact K|]. split; [exact A|]. split.
  - eapply Forall_impl; [|exact Fn]. intros x [(O & N1 & N2) B]. auto.
  - rewrite Hs. apply Forall_app. split.
    + eapply Forall_impl; [|exact Fo]. intros x [_ P] _. exact P.
    + eapply Forall_impl; [|exact Fn]. intros x [(O & _) _] C. congruence.
Qed.
Lemma L_C99_stopped : forall n l s e, zrun n (new_sst 1) l = (s, e) -> last_call e = Some (EBack 0 CStop true) ->
  Forall (fun x => v_open x = false /\ v_pc x = REnd) (z_srv s).
Proof. intros n l s e H L. exact (stopped_inv n s e (inv_reach n l s e H) L). Qed.

(** Traces. *)
Lemma step_one : forall n s t s1 e1, zstep n s t = (s1, e1) -> e1 = [] \/ exists x, e1 = [x].
Proof.
  intros n s t s1 e1 H. destruct t as [u c|u|u|v|v d]; cbn [zstep] in H.
  - destruct (nth_error (z_users s) u) as [[]|]; injection H as <- <-; eauto.
  - destruct (nth_error (z_users s) u) as [[]|]; cbn [ustep] in H; try (injection H as <- <-; eauto; fail).
    + destruct (nth_error (the_list s l) k) as [v|]; [destruct (nth_error (z_srv s) v) as [x|]; [destruct (v_open x)|]|]; injection H as <- <-; eauto.
    + destruct (nth_error (the_list s l) k) as [v|]; [destruct (nth_error (z_srv s) v) as [x|]; [destruct (v_pc x)|]|]; injection H as <- <-; eauto.
    + destruct c; injection H as <- <-; eauto.
    + destruct (Nat.ltb i n); injection H as <- <-; eauto.
    + destruct (the_list s (z_cur s)); injection H as <- <-; eauto.
    + destruct (nth_error (the_list s l) k); injection H as <- <-; eauto.
  - destruct (nth_error (z_users s) u) as [[]|]; cbn [ustep] in H; try (injection H as <- <-; eauto; fail).
    destruct (Nat.ltb i n); injection H as <- <-; eauto.
  - destruct (nth_error (z_srv s) v) as [x|]; [|injection H as <- <-; eauto]. unfold rstep in H. 
    destruct (v_pc x); [| |destruct (v_open x); [destruct (v_queue x)|]| |]; injection H as <- <-; eauto.
  - destruct (nth_error (z_srv s) v) as [x|]; [|injection H as <- <-; eauto]. destruct (v_open x); injection H as <- <-; eauto.
Qed.
Lemma split_trace : forall n (P : list ev -> ev -> Prop) k l s e,
  (forall s0 e0 t s1 x, (k = 1 -> inv n s0 e0) -> wf s0 -> zstep n s0 t = (s1, [x]) -> P e0 x) ->
  zrun n (new_sst k) l = (s, e) -> forall e1 x e2, e = e1 ++ x :: e2 -> P e1 x.
Proof.
  intros n P k l s e HP H.
  enough ((k = 1 -> inv n s e) /\ wf s /\ forall e1 x e2, e = e1 ++ x :: e2 -> P e1 x) by tauto.
  apply (zrun_inv n (fun s e => (k = 1 -> inv n s e) /\ wf s /\ forall e1 x e2, e = e1 ++ x :: e2 -> P e1 x) (fun _ => True) (new_sst k)) with (l := l); auto.
  - split; [intros ->; apply inv_new|]. split; [apply wf_new|]. intros [|] x e2; discriminate.
  - intros s0 e0 t s1 e1 (I & W & T) _ Hs. split; [intros K; exact (inv_step n s0 e0 t s1 e1 W (I K) Hs)|].
    split; [exact (wf_step n s0 t s1 e1 W Hs)|]. intros a x b E.
    destruct (step_one n s0 t s1 e1 Hs) as [->|(y & ->)].
    + rewrite app_nil_r in E. exact (T a x b E).
    + destruct (exists_last (l := x :: b)) as (b' & z & Eb); [discriminate|]. rewrite Eb, app_assoc in E.
      apply app_inj_tail in E as [E1 E2]. destruct b' as [|w b']; cbn in Eb.
      * injection Eb as -> ->. rewrite app_nil_r in E1. rewrite <- E1, <- E2 in *. exact (HP s0 e0 t s1 y I W Hs).
      * injection Eb as -> _. exact (T a w b' E1).
Qed.
Lemma recv_event : forall n s t s1 x v, zstep n s t = (s1, [x]) -> about v x = true ->
  exists y, nth_error (z_srv s) v = Some y /\
   match x with EGot _ _ => v_open y = true | ETold _ d => v_pc y = RTell d /\ v_obs y = true | ELost _ d => v_pc y = RTell d /\ v_obs y = false | _ => False end.
Proof.
  intros n s t s1 x v H A. destruct t as [u c|u|u|w|w d]; cbn [zstep] in H.
  - destruct (nth_error (z_users s) u) as [[]|]; try discriminate. injection H as <- <-. discriminate.
  - exfalso. destruct (nth_error (z_users s) u) as [[]|]; cbn [ustep] in H; try discriminate.
    + destruct (nth_error (the_list s l) k) as [w|]; [destruct (nth_error (z_srv s) w) as [y|]; [destruct (v_open y)|]|]; discriminate.
    + destruct (nth_error (the_list s l) k) as [w|]; [destruct (nth_error (z_srv s) w) as [y|]; [destruct (v_pc y)|]|]; try discriminate.
      injection H as <- <-. discriminate.
    + destruct c; [discriminate|]. injection H as <- <-. discriminate.
    + destruct (Nat.ltb i n); discriminate.
    + destruct (the_list s (z_cur s)); [|discriminate]. injection H as <- <-. discriminate.
    + destruct (nth_error (the_list s l) k); [discriminate|]. injection H as <- <-. discriminate.
  - exfalso. destruct (nth_error (z_users s) u) as [[]|]; cbn [ustep] in H; try discriminate.
    destruct (Nat.ltb i n); [|discriminate]. injection H as <- <-. discriminate.
  - destruct (nth_error (z_srv s) w) as [y|] eqn:Ey; [|discriminate]. unfold rstep in H. destruct (v_pc y) eqn:Ep; try discriminate.
    + destruct (v_open y); [destruct (v_queue y)|]; discriminate.
    + injection H as <- <-. destruct (v_obs y) eqn:Eo; cbn in A; apply Nat.eqb_eq in A; subst w; exists y; auto.
  - destruct (nth_error (z_srv s) w) as [y|] eqn:Ey; [|discriminate]. destruct (v_open y) eqn:Eo; [|discriminate].
    injection H as <- <-. cbn in A. apply Nat.eqb_eq in A. subst w. exists y. auto.
Qed.
Lemma L_C99_kept : forall n l s e e1 v d e2, zrun n (new_sst 1) l = (s, e) -> e = e1 ++ ELost v d :: e2 ->
  last_call e1 <> Some (EBack 0 CStart true).
Proof.
  intros n l s e e1 v d e2 H E.
  refine (split_trace n (fun e1 x => forall v d, x = ELost v d -> last_call e1 <> Some (EBack 0 CStart true)) 1 l s e _ H e1 _ e2 E v d eq_refl).
  clear. intros s0 e0 t s1 x I W Hs v d -> L. specialize (I eq_refl).
  destruct (recv_event n s0 t s1 _ v Hs) as (y & Hy & Py & Oy); [cbn; apply Nat.eqb_refl|].
  destruct (started_inv n s0 e0 I L) as (old & new & Es & Fo & _ & _ & Fn). apply nth_error_In in Hy. rewrite Es in Hy.
  rewrite Forall_forall in Fo, Fn. apply in_app_or in Hy as [Hy|Hy].
  - destruct (Fo y Hy). congruence.
  - destruct (Fn y Hy). congruence.
Qed.
Lemma L_C99_silent : forall n l s e e1 x v d e2, zrun n (new_sst 1) l = (s, e) -> e = e1 ++ x :: e2 ->
  (x = EGot v d \/ x = ETold v d \/ x = ELost v d) -> last_call e1 <> Some (EBack 0 CStop true).
Proof.
  intros n l s e e1 x v d e2 H E.
  refine (split_trace n (fun e1 x => (x = EGot v d \/ x = ETold v d \/ x = ELost v d) -> last_call e1 <> Some (EBack 0 CStop true)) 1 l s e _ H e1 x e2 E).
  clear. intros s0 e0 t s1 x I W Hs X L. specialize (I eq_refl).
  pose proof (stopped_inv n s0 e0 I L) as F. rewrite Forall_forall in F.
  destruct (recv_event n s0 t s1 _ v Hs) as (y & Hy & Py); [destruct X as [->|[->| ->]]; cbn; apply Nat.eqb_refl|].
  destruct (F y (nth_error_In _ _ Hy)) as [O P].
  destruct X as [->|[->| ->]]; [congruence|destruct Py; congruence|destruct Py; congruence].
Qed.
Lemma L_C99_false : forall n l s e, zrun n (new_sst 1) l = (s, e) -> In (EBack 0 CStart false) e -> n = 0.
Proof.
  intros n l s e H I. apply in_split in I as (e1 & e2 & E).
  refine (split_trace n (fun e1 x => x = EBack 0 CStart false -> n = 0) 1 l s e _ H e1 _ e2 E eq_refl).
  clear. intros s0 e0 t s1 x I W Hs ->. pose proof (inv_step n s0 e0 t s1 _ W (I eq_refl) Hs) as J.
  assert (L : last_call (e0 ++ [EBack 0 CStart false]) = Some (EBack 0 CStart false)) by now apply last_one.
  destruct J as (old & new & pend & p & _ & _ & _ & _ & _ & _ & _ & Hp).
  destruct p; cbn [phase] in Hp; try (exfalso; destruct Hp as [Q _]; congruence).
  destruct Hp as [_ [(Q2 & _)|[(Q2 & _)|(Q2 & _)]]]; try congruence.
  destruct Q2 as [Q2|[Q2|[_ Q2]]]; [congruence|congruence|exact Q2].
Qed.
Lemma L_C99_ready : forall n l s e v d s1, zrun n (new_sst 1) l = (s, e) -> zstep n s (TRecv v) = (s1, [ETold v d]) ->
  z_addr s = Some (Some 0) /\ exists old new, z_srv s = old ++ new /\ length old <= v /\
    Forall (fun x => v_open x = false /\ v_pc x = REnd) old /\ map kind new = all_servers n /\ Forall (fun x => v_pc x <> RNew) new.
Proof.
  intros n l s e v d s1 H Hs. destruct (inv_reach n l s e H) as (old & new & pend & p & Es & Hl & Hc & Hu & Ho & Hk & Ha & Hp).
  assert (W := wf_reach _ _ _ _ _ H).
  destruct (recv_event n s _ s1 _ v Hs) as (y & Hy & Py & Oy); [cbn; apply Nat.eqb_refl|].
  assert (LO : length old <= v).
  { destruct (Nat.le_gt_cases (length old) v) as [L|L]; [exact L|]. exfalso. rewrite Es, nth_error_app1 in Hy by exact L.
    destruct (Ho v y Hy). congruence. }
  pose proof Hy as Hy0. rewrite Es, nth_error_app2 in Hy by exact LO.
  assert (NP : ~ In y pend).
  { intros I. destruct p; cbn [phase] in Hp; try (assert (pend = []) as -> by tauto; destruct I).
    - destruct Hp as (_ & _ & _ & _ & _ & x & -> & _ & _ & B & _). destruct I as [<-|[]]. congruence.
    - destruct Hp as (_ & _ & _ & _ & _ & x & -> & _ & _ & B). destruct I as [<-|[]]. congruence. }
  assert (Iy : In y new).
  { apply nth_error_In, in_app_or in Hy as [Hy|Hy]; [exact Hy|contradiction]. }
  apply In_nth_error in Iy as [j Hj]. destruct (Ha j y Hj Oy) as [A K]. split; [exact A|].
  assert (pend = []) as ->.
  { assert (LN : length new = 2 * n) by (rewrite <- (map_length kind), K; apply all_len).
    destruct p; cbn [phase] in Hp; try tauto.
    - destruct Hp as (_ & _ & B & C & _). destruct uni; lia.
    - destruct Hp as (_ & _ & B & C & _). destruct uni; lia. }
  rewrite app_nil_r in Es. exists old, new. split; [exact Es|]. split; [exact LO|]. split; [now apply each_Forall|]. split; [exact K|].
  apply Forall_forall. intros x Hx. apply In_nth_error in Hx as [i Hi].
  destruct (w_in s W (z_cur s) (length old + i)) as (x' & Hx' & N).
  { rewrite Hl. apply in_seq. assert (i < length new) by (apply nth_error_Some; congruence). lia. }
  rewrite Es, nth_app2 in Hx'. congruence.
Qed.
Lemma serve : forall n m s v x, nth_error (z_srv s) v = Some x -> running x -> v_obs x = true -> length (v_queue x) <= m ->
  exists k s1, zrun n s (repeat (TRecv v) k) = (s1, map (ETold v) (waiting x)).
Proof.
  intros n m. 
  assert (B : forall s v x, nth_error (z_srv s) v = Some x -> running x -> v_obs x = true -> v_queue x = [] \/ 
     (forall s1 x1, nth_error (z_srv s1) v = Some x1 -> v_open x1 = true -> v_obs x1 = true -> v_queue x1 = tl (v_queue x) -> (exists d, v_pc x1 = RTell d) ->
        exists k s2, zrun n s1 (repeat (TRecv v) k) = (s2, map (ETold v) (waiting x1))) ->
     exists k s1, zrun n s (repeat (TRecv v) k) = (s1, map (ETold v) (waiting x))).
  { intros s v x Hx (O & N1 & N2) Ob HQ.
    assert (BW : forall s x, nth_error (z_srv s) v = Some x -> v_open x = true -> v_obs x = true -> v_pc x = RWait -> v_queue x = [] \/ 
     (forall s1 x1, nth_error (z_srv s1) v = Some x1 -> v_open x1 = true -> v_obs x1 = true -> v_queue x1 = tl (v_queue x) -> (exists d, v_pc x1 = RTell d) ->
        exists k s2, zrun n s1 (repeat (TRecv v) k) = (s2, map (ETold v) (waiting x1))) ->
      exists k s1, zrun n s (repeat (TRecv v) k) = (s1, map (ETold v) (waiting x))).
    { clear. intros s x Hx O Ob P HQ. destruct (v_queue x) as [|d q] eqn:Eq.
      - exists 0, s. unfold waiting. rewrite P, Eq. reflexivity.
      - destruct HQ as [HQ|HQ]; [discriminate|].
        destruct (HQ (change v (fun y => set_vpc (RTell d) (set_queue q y)) s) (set_vpc (RTell d) (set_queue q x))) as (k & s2 & R).
        + rewrite change_nth, Nat.eqb_refl, Hx. reflexivity.
        + exact O.
        + exact Ob.
        + reflexivity.
        + now exists d.
        + exists (S k), s2. cbn [repeat zrun zstep]. rewrite Hx. unfold rstep. rewrite P, O, Eq, R. unfold waiting. cbn. rewrite P, Eq. reflexivity. }
    assert (BC : forall s x, nth_error (z_srv s) v = Some x -> v_open x = true -> v_obs x = true -> v_pc x = RCheck -> v_queue x = [] \/ 
     (forall s1 x1, nth_error (z_srv s1) v = Some x1 -> v_open x1 = true -> v_obs x1 = true -> v_queue x1 = tl (v_queue x) -> (exists d, v_pc x1 = RTell d) ->
        exists k s2, zrun n s1 (repeat (TRecv v) k) = (s2, map (ETold v) (waiting x1))) ->
      exists k s1, zrun n s (repeat (TRecv v) k) = (s1, map (ETold v) (waiting x))).
    { clear - BW. intros s x Hx O Ob P HQ. destruct (BW (change v (set_vpc RWait) s) (set_vpc RWait x)) as (k & s2 & R); auto.
      - rewrite change_nth, Nat.eqb_refl, Hx. reflexivity.
      - exists (S k), s2. cbn [repeat zrun zstep]. rewrite Hx. unfold rstep. rewrite P, O, R. unfold waiting. cbn. rewrite P. reflexivity. }
    destruct (v_pc x) as [| | |d|] eqn:P; try contradiction; [now apply (BC s x)|now apply (BW s x)|].
    destruct (BC (change v (set_vpc RCheck) s) (set_vpc RCheck x)) as (k & s2 & R); auto.
    - rewrite change_nth, Nat.eqb_refl, Hx. reflexivity.
    - exists (S k), s2. cbn [repeat zrun zstep]. rewrite Hx. unfold rstep. rewrite P, Ob, R. unfold waiting. cbn. rewrite P. reflexivity. }
  induction m as [|m IH]; intros s v x Hx R Ob M; apply (B s v x Hx R Ob).
  - left. destruct (v_queue x); [reflexivity|cbn in M; lia].
  - right. intros s1 x1 H1 O1 B1 Q1 [d P1]. apply (IH s1 v x1 H1); auto.
    + split; [exact O1|]. rewrite P1. split; discriminate.
    + rewrite Q1. destruct (v_queue x); cbn in *; lia.
Qed.
Lemma L_C99_served : forall n l s e v x, zrun n (new_sst 1) l = (s, e) -> last_call e = Some (EBack 0 CStart true) ->
  nth_error (z_srv s) v = Some x -> v_open x = true ->
  exists k s1, zrun n s (repeat (TRecv v) k) = (s1, map (ETold v) (waiting x)).
Proof.
  intros n l s e v x H L Hx O. destruct (started_inv n s e (inv_reach n l s e H) L) as (old & new & Es & Fo & _ & _ & Fn).
  pose proof (nth_error_In _ _ Hx) as I. rewrite Es in I. rewrite Forall_forall in Fo, Fn. apply in_app_or in I as [I|I].
  - destruct (Fo x I). congruence.
  - destruct (Fn x I) as [R Ob]. exact (serve n _ s v x Hx R Ob (le_n _)).
Qed.

(** ** What goes wrong *)
Definition w_early (d : nat) : list turn :=
  [TCall 0 CStart; TGo 0; TGo 0; TGo 0; TGo 0; TArrive 0 d; TRecv 0; TRecv 0; TRecv 0] ++ repeat (TGo 0) 11.
Lemma L_C99_early_refuted : forall d, exists l s e, zrun 1 (new_sst 1) l = (s, e) /\ no_fail l /\
  last_call e = Some (EBack 0 CStart true) /\ got 0 e = [d] /\ lost 0 e = [d] /\ told 0 e = [].
Proof.
  intros d. destruct (zrun 1 (new_sst 1) (w_early d)) as [s e] eqn:E. exists (w_early d), s, e. split; [exact E|].
  vm_compute in E. injection E as <- <-. split; [|repeat split].
  intros u I. cbn in I. repeat destruct I as [I|I]; first [discriminate|exact I].
Qed.
Definition w_raise (d : nat) : list turn :=
  TCall 0 CStart :: repeat (TGo 0) 5 ++ [TFail 0; TArrive 0 d; TRecv 0; TRecv 0; TRecv 0].
Lemma L_C99_raise_refuted : forall d, exists l s e, zrun 1 (new_sst 1) l = (s, e) /\
  last_call e = Some (ERaise 0) /\ nth_error (z_users s) 0 = Some UIdle /\
  (exists x, nth_error (z_srv s) 0 = Some x /\ running x) /\ got 0 e = [d] /\ lost 0 e = [d].
Proof.
  intros d. destruct (zrun 1 (new_sst 1) (w_raise d)) as [s e] eqn:E. exists (w_raise d), s, e. split; [exact E|].
  vm_compute in E. injection E as <- <-. split; [reflexivity|]. split; [reflexivity|]. split; [|split; reflexivity].
  eexists. split; [reflexivity|]. repeat split; discriminate.
Qed.
Definition w_twice : list turn :=
  [TCall 0 CStart; TGo 0; TGo 0; TCall 1 CStart; TGo 1; TGo 1] ++ repeat (TGo 0) 6 ++ repeat (TGo 1) 6 ++ repeat (TGo 0) 8 ++ repeat (TGo 1) 8.
Lemma L_C99_twice_refuted : exists l s e, zrun 1 (new_sst 2) l = (s, e) /\ no_fail l /\
  In (EBack 0 CStart true) e /\ In (EBack 1 CStart true) e /\ ~ In (ECall 0 CStop) e /\ ~ In (ECall 1 CStop) e /\
  map kind (filter v_open (z_srv s)) = [(0, true); (0, false); (0, true); (0, false)] /\
  Forall (fun x => running x /\ v_obs x = true) (z_srv s).
Proof.
  destruct (zrun 1 (new_sst 2) w_twice) as [s e] eqn:E. exists w_twice, s, e. split; [exact E|].
  vm_compute in E. injection E as <- <-. split.
  { intros u I. cbn in I. repeat destruct I as [I|I]; first [discriminate|exact I]. }
  split; [cbn; tauto|]. split; [cbn; tauto|].
  split; [intros I; cbn in I; repeat destruct I as [I|I]; first [discriminate|exact I]|].
  split; [intros I; cbn in I; repeat destruct I as [I|I]; first [discriminate|exact I]|].
  split; [reflexivity|]. repeat (constructor; [repeat split; discriminate|]). constructor.
Qed.
Definition w_half : list turn :=
  TCall 0 CStart :: repeat (TGo 0) 5 ++ [TCall 1 CStop; TGo 1; TRecv 0; TGo 1; TGo 1; TGo 1] ++ repeat (TGo 0) 8.
Lemma L_C99_half_refuted : exists l s e, zrun 1 (new_sst 2) l = (s, e) /\ no_fail l /\
  In (EBack 1 CStop true) e /\ last_call e = Some (EBack 0 CStart true) /\
  map kind (filter v_open (z_srv s)) = [(0, false)] /\ z_addr s = Some None.
Proof.
  destruct (zrun 1 (new_sst 2) w_half) as [s e] eqn:E. exists w_half, s, e. split; [exact E|].
  vm_compute in E. injection E as <- <-. split.
  { intros u I. cbn in I. repeat destruct I as [I|I]; first [discriminate|exact I]. }
  split; [cbn; tauto|]. repeat split.
Qed.

(** A server that only an abandoned list has. *)
Record leaked (v l0 : nat) (s : sst) : Prop := {
  lk_srv : exists x, nth_error (z_srv s) v = Some x /\ running x /\ v_obs x = true;
  lk_in : forall l, In v (the_list s l) -> l = l0;
  lk_cur : z_cur s <> l0;
  lk_len : l0 < length (z_lists s);
  lk_users : forall u p, nth_error (z_users s) u = Some p ->
    match p with UStop _ l _ | UJoin _ l _ => l <> l0 | URun _ _ w | UAppend _ _ w => w <> v | _ => True end }.
Lemma leaked_step : forall n v l0 s t s1 e1, wf s -> leaked v l0 s -> zstep n s t = (s1, e1) -> leaked v l0 s1.
Proof.
  intros n v l0 s t s1 e1 W K H. pose proof (step_vmove _ _ _ _ _ (w_run s W) H v) as VM.
  pose proof (lk_srv v l0 s K) as (x & Hx & (O & N1 & N2) & B). rewrite Hx in VM.
  assert (SL := step_lists _ _ _ _ _ (w_cur s W) H).
  constructor.
  - inversion VM as [o Ho H1 He|i uni Ho H1 He|x' Y Y1 Ho H1 He|x' Y0 P0 Ho H1 He|x' Y Ho H1 He|x' Y1 Ho H1 He|x' Y1 Y2 Ho H1 He|x' d q Y1 Y2 Y3 Ho H1 He|x' d Y1 Ho H1 He|x' d Y1 Ho H1 He]; subst;
      try congruence; try (eexists; split; [reflexivity|]; split; [repeat split|]; cbn; auto; try discriminate; try congruence; fail).
    + exfalso. destruct Y as (u & c & l & k & Hu & Hl & _). pose proof (lk_users v l0 s K u _ Hu) as NL. cbn in NL.
      apply NL. exact (lk_in v l0 s K l (nth_error_In _ _ Hl)).
    + eexists; split; [reflexivity|]. rewrite O. split; [repeat split|]; cbn; auto; discriminate.
  - intros l Hl. destruct (step_the_list _ _ _ _ _ (w_cur s W) H l) as [E|(u & i & uni & w & Hu & _ & _ & E)]; rewrite E in Hl.
    + exact (lk_in v l0 s K l Hl).
    + apply in_app_or in Hl as [Hl|[<-|[]]]; [exact (lk_in v l0 s K l Hl)|].
      pose proof (lk_users w l0 s K u _ Hu) as NE. cbn in NE. contradiction.
  - pose proof (lk_cur v l0 s K). pose proof (lk_len v l0 s K).
    destruct SL as [[A C]|[(u & i & uni & w & _ & _ & A & C)|(u & c & _ & _ & A & C)]]; rewrite C; lia.
  - pose proof (lk_len v l0 s K).
    destruct SL as [[A C]|[(u & i & uni & w & _ & _ & A & C)|(u & c & _ & _ & A & C)]]; rewrite A; rewrite ?length_put, ?app_length; lia.
  - intros u p Hp.
    assert (US : forall w f q, nth_error (z_users s) w = Some q -> ustep n s w f q = (s1, e1) ->
      match p with UStop _ l _ | UJoin _ l _ => l <> l0 | URun _ _ w | UAppend _ _ w => w <> v | _ => True end).
    { intros w f q Hq Hw. pose proof (lk_users v l0 s K u) as OU. pose proof (lk_users v l0 s K w q Hq) as Oq.
      assert (SET : forall q1 s', s1 = set_user w q1 s' -> z_users s' = z_users s ->
         match q1 with UStop _ l _ | UJoin _ l _ => l <> l0 | URun _ _ w | UAppend _ _ w => w <> v | _ => True end ->
         match p with UStop _ l _ | UJoin _ l _ => l <> l0 | URun _ _ w | UAppend _ _ w => w <> v | _ => True end).
      { intros q1 s' -> Eu Q1. cbn [set_user z_users] in Hp. rewrite Eu in Hp. apply nth_put_cases in Hp as [[-> ->]|[_ Hp]]; [exact Q1|].
        exact (OU p Hp). }
      assert (ID : s1 = s -> match p with UStop _ l _ | UJoin _ l _ => l <> l0 | URun _ _ w | UAppend _ _ w => w <> v | _ => True end).
      { intros ->. exact (OU p Hp). }
      destruct q; cbn [ustep] in Hw; cbn in Oq.
      - apply ID. congruence.
      - destruct (nth_error (the_list s l) k) as [w'|]; [|injection Hw as <- <-; eapply SET; [reflexivity|reflexivity|exact Logic.I]].
        destruct (nth_error (z_srv s) w') as [y|]; [|apply ID; congruence].
        destruct (v_open y); injection Hw as <- <-; (eapply SET; [reflexivity| |exact Oq]); [apply change_users|reflexivity].
      - destruct (nth_error (the_list s l) k) as [w'|]; [|apply ID; congruence].
        destruct (nth_error (z_srv s) w') as [y|]; [|apply ID; congruence].
        destruct (v_pc y); try (apply ID; congruence); injection Hw as <- <-; (eapply SET; [reflexivity|reflexivity|]); [exact Logic.I|exact Oq].
      - destruct c; injection Hw as <- <-; (eapply SET; [reflexivity|reflexivity|exact Logic.I]).
      - destruct (Nat.ltb i n); [destruct f|]; injection Hw as <- <-; (eapply SET; [reflexivity|reflexivity|]); try exact Logic.I.
        cbn. intros E. assert (v < length (z_srv s)) by (apply nth_error_Some; congruence). lia.
      - injection Hw as <- <-. eapply SET; [reflexivity|apply change_users|exact Oq].
      - injection Hw as <- <-. eapply SET; [reflexivity|reflexivity|destruct uni; exact Logic.I].
      - destruct (the_list s (z_cur s)); injection Hw as <- <-; (eapply SET; [reflexivity|reflexivity|exact Logic.I]).
      - injection Hw as <- <-. eapply SET; [reflexivity|reflexivity|exact Logic.I].
      - destruct (nth_error (the_list s l) k); injection Hw as <- <-; (eapply SET; [reflexivity| |exact Logic.I]); [apply change_users|reflexivity]. }
    assert (ID : z_users s1 = z_users s -> match p with UStop _ l _ | UJoin _ l _ => l <> l0 | URun _ _ w | UAppend _ _ w => w <> v | _ => True end).
    { intros E. rewrite E in Hp. exact (lk_users v l0 s K u p Hp). }
    destruct t as [w c|w|w|w|w d]; cbn [zstep] in H.
    + destruct (nth_error (z_users s) w) as [[]|] eqn:Ew; try (apply ID; congruence). injection H as <- <-.
      cbn [set_user z_users] in Hp. apply nth_put_cases in Hp as [[-> ->]|[_ Hp]]; [exact (lk_cur v l0 s K)|].
      exact (lk_users v l0 s K u p Hp).
    + destruct (nth_error (z_users s) w) as [q|] eqn:Ew; [|apply ID; congruence]. exact (US w false q Ew H).
    + destruct (nth_error (z_users s) w) as [[]|] eqn:Ew; try (apply ID; congruence). exact (US w true _ Ew H).
    + apply ID. destruct (step_sim n s (TRecv w) s1 e1 Logic.I H) as (_ & _ & _ & _ & E & _). exact E.
    + apply ID. destruct (step_sim n s (TArrive w d) s1 e1 Logic.I H) as (_ & _ & _ & _ & E & _). exact E.
Qed.
Definition w_leak : list turn :=
  [TCall 0 CStart; TGo 0; TGo 0; TCall 1 CStop; TGo 1] ++ repeat (TGo 0) 12 ++ [TGo 1].
Lemma L_C99_leak_refuted : exists l s e, zrun 1 (new_sst 2) l = (s, e) /\ no_fail l /\ z_users s = [UIdle; UIdle] /\
  In (EBack 0 CStart true) e /\ last_call e = Some (EBack 1 CStop true) /\
  forall l2 s2 e2 v, v < 2 -> zrun 1 s l2 = (s2, e2) ->
    exists x, nth_error (z_srv s2) v = Some x /\ v_open x = true /\ v_pc x <> REnd /\ v_obs x = true.
Proof.
  destruct (zrun 1 (new_sst 2) w_leak) as [s e] eqn:E. exists w_leak, s, e. split; [exact E|].
  assert (W := wf_reach _ _ _ _ _ E).
  assert (K : leaked 0 1 s /\ leaked 1 1 s).
  { vm_compute in E. injection E as <- <-. split; (constructor; cbn;
      [eexists; split; [reflexivity|]; repeat split; discriminate
      |unfold the_list; cbn; intros [|[|[|[|l]]]] I; cbn in I; tauto|lia|lia
      |intros [|[|[|u]]] p Hp; cbn in Hp; try discriminate; injection Hp as <-; exact Logic.I]). }
  split.
  { intros u I. cbn in I. repeat destruct I as [I|I]; first [discriminate|exact I]. }
  assert (G : forall v, leaked v 1 s -> forall l2 s2 e2, zrun 1 s l2 = (s2, e2) ->
    exists x, nth_error (z_srv s2) v = Some x /\ v_open x = true /\ v_pc x <> REnd /\ v_obs x = true).
  { intros v Kv l2 s2 e2 R. enough (wf s2 /\ leaked v 1 s2) as [_ Q].
    - destruct (lk_srv _ _ _ Q) as (x & Hx & (O & _ & N) & B). exists x. auto.
    - apply (zrun_inv 1 (fun s e => wf s /\ leaked v 1 s) (fun _ => True) s) with (l := l2) (e := e2); auto.
      intros s0 e0 t s1 e1 [W0 K0] _ Hs. split; [exact (wf_step _ _ _ _ _ W0 Hs)|exact (leaked_step _ _ _ _ _ _ _ W0 K0 Hs)]. }
  split; [|split; [|split]].
  - vm_compute in E. injection E as <- <-. reflexivity.
  - vm_compute in E. injection E as <- <-. cbn. tauto.
  - vm_compute in E. injection E as <- <-. reflexivity.
  - intros l2 s2 e2 v V R. destruct K as [K0 K1]. destruct v as [|[|v]]; [exact (G 0 K0 l2 s2 e2 R)|exact (G 1 K1 l2 s2 e2 R)|lia].
Qed.

(** Start, receive on both servers of two interfaces, stop, start again. *)
Definition w_ex : list turn :=
  TCall 0 CStart :: repeat (TGo 0) 22 ++ [TArrive 1 7; TArrive 2 8; TArrive 2 9] ++ repeat (TRecv 1) 4 ++ repeat (TRecv 2) 7 ++
  TCall 0 CStop :: flat_map (fun v => [TGo 0; TRecv v; TRecv v; TGo 0]) [0; 1; 2; 3] ++ [TGo 0; TGo 0; TArrive 0 5].
Lemma L_C99_ex :
  let '(s, e) := zrun 2 (new_sst 1) w_ex in
  e = [ECall 0 CStart; EBack 0 CStart true; EGot 1 7; EGot 2 8; EGot 2 9; ETold 1 7; ETold 2 8; ETold 2 9; ECall 0 CStop; EBack 0 CStop true] /\
  z_addr s = Some (Some 0) /\ map kind (z_srv s) = all_servers 2.
Proof. vm_compute. repeat split. Qed.
