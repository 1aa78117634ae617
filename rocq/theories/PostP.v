(** Lemmas for C51-C54. *)
From Verif Require Import PyBase EsvM MsgM NodeM TidM PostM SpecPost WireP TidP.

Lemma prun_app s a b : prun s (a ++ b) = let '(s1, e1) := prun s a in let '(s2, e2) := prun s1 b in (s2, e1 ++ e2).
Proof.
  revert s. induction a as [|[i x] a IH]; intros s; cbn [app prun].
  - now destruct (prun s b).
  - destruct (pstep s i x) as [[s1 e1]|]; [|apply IH]. rewrite IH. destruct (prun s1 a) as [s2 e2]. destruct (prun s2 b) as [s3 e3]. now rewrite app_assoc.
Qed.
Lemma is_response_iff e : is_response e = true <-> ~ In e [0x60; 0x61; 0x62; 0x63; 0x6E; 0x74].
Proof.
  unfold is_response, is_request, WRITE_REQUEST, WRITE_REQUEST_RESPONSE_REQUIRED, READ_REQUEST, NOTIFICATION_REQUEST, WRITE_READ_REQUEST, NOTIFICATION_RESPONSE_REQUIRED.
  cbn [In]. repeat match goal with |- context[e =? ?k] => destruct (Z.eqb_spec e k) end; cbn [negb]; intuition (try congruence).
Qed.

(** ** Steps change one program counter, and [wake] another *)
Lemma nth_wake w l j : nth_error (wake w l) j =
  match nth_error l j with Some (PSleep q) => if Nat.eqb j w then Some (PWake q true) else Some (PSleep q) | x => x end.
Proof.
  unfold wake. destruct (nth_error l w) as [p|] eqn:E.
  - destruct p; try (destruct (nth_error l j) as [p'|] eqn:Ej; [|reflexivity]; destruct p'; try reflexivity; destruct (Nat.eqb_spec j w); congruence).
    rewrite nth_put, E. destruct (Nat.eqb_spec j w) as [->|].
    + rewrite E. reflexivity.
    + destruct (nth_error l j) as [p'|]; [|reflexivity]. destruct p'; reflexivity.
  - destruct (nth_error l j) as [p'|] eqn:Ej; [|reflexivity]; destruct p'; try reflexivity; destruct (Nat.eqb_spec j w); congruence.
Qed.

(** ** Refutations *)
Ltac inn := repeat match goal with |- _ /\ _ => split end; try reflexivity; cbn [In app]; repeat (first [left; reflexivity | right]).
Definition rsp (t : Z) : msg := mkmsg t 0x029101 0x0EF001 0x72 [mkprop 0x80 [0x30]] [] [] (Some ("10.0.0.9"%string, 3610)) None.
Definition st (i : nat) (k : nat) : list (nat * act) := repeat (i, AStep) k.
(** A call up to sleeping; the rest of a call. *)
Definition to_sleep (i q : nat) : list (nat * act) := (i, APost q) :: st i 3 ++ [(i, ASend true)] ++ st i 2.
Definition handle (i : nat) (m : msg) : list (nat * act) := (i, ARecv m) :: st i 12.

Lemma L_C51_late_refuted : exists sched s' evs m, one_poster sched /\ prun (new_post 2 [0; 0]) sched = (s', evs) /\
  In (ESent 0 1 2) evs /\ In (EReturn 0 1 (Some m)) evs /\ m_TID m = 1.
Proof.
  exists (to_sleep 0 0 ++ (1%nat, ARecv (rsp 1)) :: st 1 7 ++ st 0 5 ++ to_sleep 0 1 ++ st 1 5 ++ st 0 4). eexists _, _, (rsp 1).
  split; [|split; [vm_compute; reflexivity|inn]].
  intros i a I. cbn in I. repeat (destruct I as [E|I]; [injection E as <- <-; auto; discriminate|]). contradiction.
Qed.
Lemma L_C51_early_refuted : exists sched s' evs m, one_poster sched /\ prun (new_post 2 [0]) sched = (s', evs) /\
  In (ESent 0 0 1) evs /\ In (EReturn 0 0 (Some m)) evs /\ m_TID m = 0.
Proof.
  exists ((0%nat, APost 0) :: st 0 2 ++ handle 1 (rsp 0) ++ st 0 1 ++ [(0%nat, ASend true)] ++ st 0 7). eexists _, _, (rsp 0).
  split; [|split; [vm_compute; reflexivity|inn]].
  intros i a I. cbn in I. repeat (destruct I as [E|I]; [injection E as <- <-; auto; discriminate|]). contradiction.
Qed.
Lemma L_C51_before_refuted : exists sched s' e1 e2 m, one_poster sched /\
  prun (new_post 2 [5]) sched = (s', EArrive 1 m :: EBegin 0 0 :: e1 ++ EReturn 0 0 (Some m) :: e2) /\ forall j, ~ In (EArrive j m) e1.
Proof.
  exists ((1%nat, ARecv (rsp 5)) :: to_sleep 0 0 ++ st 1 12 ++ st 0 4). eexists _, [ETid 0 0 5; ESent 0 0 5], [], (rsp 5).
  split; [|split; [vm_compute; reflexivity|]].
  - intros i a I. cbn in I. repeat (destruct I as [E|I]; [injection E as <- <-; auto; discriminate|]). contradiction.
  - intros j [X|[X|[]]]; discriminate.
Qed.
Lemma pre_step s i m : nth_error (p_pcs s) i = Some (RPre m) -> is_response (m_ESV m) = true ->
  pstep s i AStep = Some (mkpst (p_tid s) (p_msgs s) (p_cells s) (p_last s) (p_lock s) (p_waiters s) (put (p_pcs s) i (RLast1 m)), []).
Proof. intros E R. unfold pstep. rewrite E, R. reflexivity. Qed.
Lemma L_C52_sender_refuted : forall m, response m -> m_TID m = 1 -> exists sched s' evs, one_poster sched /\
  prun (new_post 2 [0]) sched = (s', evs) /\ In (ESent 0 0 1) evs /\ In (EReturn 0 0 (Some m)) evs.
Proof.
  intros m R T. exists (to_sleep 0 0 ++ handle 1 m ++ st 0 4). eexists _, _. apply is_response_iff in R.
  split; [|split].
  - intros i a I. cbn in I. repeat (destruct I as [E|I]; [injection E as <- <-; auto; discriminate|]). contradiction.
  - change (to_sleep 0 0 ++ handle 1 m ++ st 0 4) with ((to_sleep 0 0 ++ [(1%nat, ARecv m)]) ++ (1%nat, AStep) :: st 1 11 ++ st 0 4).
    rewrite prun_app. destruct m as [t a b e l1 l2 l3 x y]. cbn in R, T. subst t.
    match goal with |- context[prun ?s ?l] => let r := eval vm_compute in (prun s l) in change (prun s l) with r end. cbn iota.
    cbn [prun]. erewrite pre_step by (reflexivity || exact R).
    match goal with |- context[prun ?s ?l] => let r := eval vm_compute in (prun s l) in change (prun s l) with r end. cbn iota. cbn [app]. reflexivity.
  - inn.
Qed.
Lemma L_C53_mixed_refuted : exists sched s' evs m, prun (new_post 3 [0; 0]) sched = (s', evs) /\
  In (ESent 0 0 1) evs /\ In (ESent 1 1 2) evs /\ In (EReturn 0 0 (Some m)) evs /\ In (EReturn 1 1 (Some m)) evs /\ m_TID m = 2.
Proof.
  exists (to_sleep 0 0 ++ to_sleep 1 1 ++ handle 2 (rsp 2) ++ st 0 4 ++ st 1 5). eexists _, _, (rsp 2).
  split; [vm_compute; reflexivity|inn].
Qed.

(** ** Orderly schedules *)
Definition posting (p : pc) : bool :=
  match p with
  | PReq _ | PReqAt _ _ | PTid _ | PSend _ | PNone _ | PAcq _ | PWait _ | PSleep _ | PWake _ _ | PRel _ | PLast _ | PRet _ _ => true
  | _ => false
  end.
Definition arrived (b : list pev) (m : msg) : Prop := exists j, In (EArrive j m) b.
Definition cur (s : pst) : cell := cell_of s (p_last s).
Definition sound (s : pst) (q : nat) (b : list pev) (m : msg) : Prop := response m /\ m_TID m = tid_of s q /\ arrived b m.
(** The threads other than the caller. *)
Definition rpc (s : pst) (q : nat) (b : list pev) (p : pc) : Prop :=
  match p with
  | PIdle | RRel _ => True
  | RPre m => arrived b m
  | RLast1 m | RLast2 m => response m /\ arrived b m
  | RReq1 m p' | RResp1 m p' | RReq2 m p' => p' = p_last s /\ response m /\ arrived b m
  | RTid m q' => q' = q /\ response m /\ arrived b m
  | RLast3 m => sound s q b m
  | RStore m p' => p' = p_last s /\ sound s q b m
  | RAcq _ | RNotify _ => k_resp (cur s) <> None
  | _ => False
  end.
(** The caller. *)
Definition ppc (s : pst) (i q : nat) (b : list pev) (p : pc) : Prop :=
  match p with
  | PSend q' => q' = q /\ p_waiters s = []
  | PNone q' => q' = q /\ p_waiters s = [] /\ In (EUnsent i q) b
  | PAcq q' | PWait q' => q' = q /\ p_waiters s = [] /\ In (ESent i q (tid_of s q)) b
  | PSleep q' => q' = q /\ p_waiters s = [i] /\ In (ESent i q (tid_of s q)) b
  | PWake q' got => q' = q /\ In (ESent i q (tid_of s q)) b /\
      (if got then p_waiters s = [] /\ k_resp (cur s) <> None else (p_waiters s = [i] \/ p_waiters s = []) /\ In (ETimeout i q) b)
  | PRel q' | PLast q' => q' = q /\ In (ESent i q (tid_of s q)) b /\ p_waiters s = [] /\ (k_resp (cur s) <> None \/ In (ETimeout i q) b)
  | PRet q' p' => q' = q /\ In (ESent i q (tid_of s q)) b /\ p_waiters s = [] /\ (k_resp (cur s) <> None \/ In (ETimeout i q) b) /\ p' = p_last s
  | _ => False
  end.
Definition starting (s : pst) (q : nat) (p : pc) : Prop :=
  match p with
  | PReq q' => q' = q /\ cur s = mkcell None None
  | PReqAt q' p' => q' = q /\ p' = p_last s /\ cur s = mkcell None None
  | PTid q' => q' = q /\ cur s = mkcell (Some q) None
  | _ => False
  end.
Definition late (s : pst) (i q : nat) (b : list pev) (p : pc) : Prop :=
  k_req (cur s) = Some q /\ (forall m, k_resp (cur s) = Some m -> sound s q b m) /\
  (forall j p', j <> i -> nth_error (p_pcs s) j = Some p' -> rpc s q b p') /\ ppc s i q b p.
Definition inv (s : pst) (e : list pev) : Prop :=
  (p_last s < length (p_cells s))%nat /\
  ((forall j p, nth_error (p_pcs s) j = Some p -> posting p = false) /\ p_waiters s = [] \/
   exists i q b p, last_call e i q b /\ (q < length (p_msgs s))%nat /\ nth_error (p_pcs s) i = Some p /\
     (others_idle s i /\ p_waiters s = [] /\ starting s q p \/ late s i q b p)).

Lemma last_call_more e i q b ev : last_call e i q b -> (forall j p, ~ In (EBegin j p) ev) -> last_call (e ++ ev) i q (b ++ ev).
Proof.
  intros (a & -> & N) H. exists a. rewrite <- app_assoc. split; [reflexivity|]. intros j p I. apply in_app_iff in I. destruct I; [eapply N|eapply H]; eauto.
Qed.
Lemma arrived_more b m ev : arrived b m -> arrived (b ++ ev) m.
Proof. intros (j & I). exists j. apply in_app_iff. auto. Qed.
Lemma sound_more s s' q b m ev : p_msgs s' = p_msgs s -> sound s q b m -> sound s' q (b ++ ev) m.
Proof. intros E (R & T & A). unfold sound, tid_of. rewrite E. repeat split; auto. now apply arrived_more. Qed.
Lemma rpc_more s s' q b p ev : p_msgs s' = p_msgs s -> p_last s' = p_last s -> (k_resp (cur s) <> None -> k_resp (cur s') <> None) ->
  rpc s q b p -> rpc s' q (b ++ ev) p.
Proof.
  intros E L C. destruct p; cbn [rpc]; rewrite ?L; auto using arrived_more; try tauto.
  all: intuition eauto using arrived_more, sound_more.
Qed.
Lemma ppc_more s s' i q b p ev : p_msgs s' = p_msgs s -> p_last s' = p_last s -> p_waiters s' = p_waiters s -> (k_resp (cur s) <> None -> k_resp (cur s') <> None) ->
  ppc s i q b p -> ppc s' i q (b ++ ev) p.
Proof.
  intros E L W C. assert (T : tid_of s' q = tid_of s q) by (unfold tid_of; now rewrite E).
  assert (I : forall x, In x b -> In x (b ++ ev)) by (intros; apply in_app_iff; auto).
  destruct p; cbn [ppc]; rewrite ?L, ?W, ?T; try tauto; try (intros H; decompose [and] H; repeat split; auto; fail).
  - destruct got; intuition.
  - intuition.
  - intuition.
  - intuition.
Qed.

Definition nobegin (ev : list pev) : Prop := forall j p, ~ In (EBegin j p) ev.
Definition same_shared (s s' : pst) : Prop :=
  p_msgs s' = p_msgs s /\ p_cells s' = p_cells s /\ p_last s' = p_last s.
(** A receiver steps during a call. *)
Lemma late_other s s' e ev i q b p k x : last_call e i q b -> (q < length (p_msgs s))%nat -> nth_error (p_pcs s) i = Some p -> late s i q b p ->
  (p_last s < length (p_cells s))%nat ->
  k <> i -> nobegin ev -> same_shared s s' -> p_waiters s' = p_waiters s -> p_pcs s' = put (p_pcs s) k x -> rpc s q (b ++ ev) x -> inv s' (e ++ ev).
Proof.
  intros LC Q Pi (K & R & O & P) LL N NB (S1 & S2 & S3) W Pcs X.
  assert (Cu : cur s' = cur s) by (unfold cur, cell_of; now rewrite S2, S3).
  split; [now rewrite S2, S3|]. right. exists i, q, (b ++ ev), p. split; [now apply last_call_more|]. split; [now rewrite S1|]. split.
  { rewrite Pcs, nth_put. destruct (Nat.eqb_spec i k); [congruence|exact Pi]. }
  right. unfold late. rewrite Cu. split; [exact K|]. split; [intros m H; apply (sound_more s); auto|]. split.
  - intros j p' J. rewrite Pcs, nth_put. destruct (Nat.eqb_spec j k) as [->|].
    + destruct (nth_error (p_pcs s) k); [|discriminate]. intros H. assert (p' = x) by congruence. subst p'.
      rewrite <- (app_nil_r (b ++ ev)). apply (rpc_more s); auto. now rewrite Cu.
    + intros H. apply (rpc_more s); auto. now rewrite Cu. eauto.
  - apply (ppc_more s); auto. now rewrite Cu.
Qed.
(** The caller steps. *)
Lemma late_self s s' e ev i q b p x : last_call e i q b -> (q < length (p_msgs s))%nat -> nth_error (p_pcs s) i = Some p -> late s i q b p ->
  (p_last s < length (p_cells s))%nat ->
  nobegin ev -> same_shared s s' -> p_pcs s' = put (p_pcs s) i x -> ppc s' i q (b ++ ev) x -> inv s' (e ++ ev).
Proof.
  intros LC Q Pi (K & R & O & P) LL NB (S1 & S2 & S3) Pcs X.
  assert (Cu : cur s' = cur s) by (unfold cur, cell_of; now rewrite S2, S3).
  split; [now rewrite S2, S3|]. right. exists i, q, (b ++ ev), x. split; [now apply last_call_more|]. split; [now rewrite S1|]. split.
  { rewrite Pcs, nth_put, Nat.eqb_refl, Pi. reflexivity. }
  right. unfold late. rewrite Cu. split; [exact K|]. split; [intros m H; apply (sound_more s); auto|]. split; [|exact X].
  intros j p' J. rewrite Pcs, nth_put. destruct (Nat.eqb_spec j i) as [->|]; [congruence|]. intros H. apply (rpc_more s); auto. now rewrite Cu. eauto.
Qed.
(** The call ends. *)
Lemma late_end s s' e ev i q b p : nth_error (p_pcs s) i = Some p -> late s i q b p ->
  (p_last s < length (p_cells s))%nat -> same_shared s s' -> p_waiters s' = [] -> p_pcs s' = put (p_pcs s) i PIdle -> inv s' (e ++ ev).
Proof.
  intros Pi (K & R & O & P) LL (S1 & S2 & S3) W Pcs. split; [now rewrite S2, S3|]. left. split; [|exact W].
  intros j p'. rewrite Pcs, nth_put. destruct (Nat.eqb_spec j i) as [->|N].
  - rewrite Pi. now intros [= <-].
  - intros H. specialize (O j p' N H). destruct p'; try reflexivity; contradiction.
Qed.
Lemma cell_put s c k : (p_last s < length (p_cells s))%nat -> nth k (put (p_cells s) (p_last s) c) (mkcell None None) = if Nat.eqb k (p_last s) then c else nth k (p_cells s) (mkcell None None).
Proof.
  intros L. generalize (mkcell None None). intros d. revert k L. generalize (p_last s), (p_cells s). clear s. intros n l. revert n. induction l as [|y l IH]; intros n k L; [cbn in L; lia|].
  destruct n, k; cbn [put nth Nat.eqb]; try reflexivity. apply IH. cbn in L. lia.
Qed.
Lemma tid_put l q t : (q < length l)%nat -> nth q (put l q t) 0 = t.
Proof. revert q; induction l as [|y l IH]; intros q L; [cbn in L; lia|]. destruct q; [reflexivity|]. cbn. apply IH. cbn in L; lia. Qed.
Lemma nobegin_nil : nobegin [].
Proof. intros j p []. Qed.
Lemma nobegin_one e : (forall j p, e <> EBegin j p) -> nobegin [e].
Proof. intros H j p [X|[]]. eapply H; eauto. Qed.
Lemma in_snoc {A} (x : A) l y : In x l -> In x (l ++ y).
Proof. intros; apply in_app_iff; auto. Qed.
Lemma in_last {A} (x : A) l : In x (l ++ [x]).
Proof. apply in_app_iff; right; now left. Qed.

Lemma inv_step s e k a s' ev : inv s e -> pstep s k a = Some (s', ev) ->
  match a with APost _ => others_idle s k | _ => True end ->
  (forall j p, j <> k -> nth_error (p_pcs s) j = Some p -> early p = false) ->
  inv s' (e ++ ev) /\ forall i q r, ev = [EReturn i q r] -> exists b, last_call e i q b /\ right_return i q r b.
Proof.
  intros (LL & I) H Ho Hf.
  destruct (nth_error (p_pcs s) k) as [pk|] eqn:Ek; [|unfold pstep in H; rewrite Ek in H; discriminate].
  unfold pstep in H. rewrite Ek in H.
  destruct I as [(NP & W)|(i & q & b & p & LC & Q & Pi & C)].
  - (* no call *)
    pose proof (NP k pk Ek) as Nk.
    assert (G : forall x, posting x = false -> forall j p, nth_error (put (p_pcs s) k x) j = Some p -> posting p = false).
    { intros x Px j p. rewrite nth_put, Ek. destruct (Nat.eqb_spec j k); [congruence|apply NP]. }
    assert (D : forall s2 ev2 x, p_cells s2 = p_cells s -> p_last s2 = p_last s -> p_waiters s2 = [] -> p_pcs s2 = put (p_pcs s) k x -> posting x = false -> inv s2 (e ++ ev2)).
    { intros s2 ev2 x H1 H2 H3 H4 H5. split; [now rewrite H1, H2|]. left. split; [rewrite H4; now apply G|exact H3]. }
    destruct pk; destruct a; try discriminate H; cbn [posting] in Nk; try discriminate Nk.
    + (* begin *) destruct (Nat.ltb_spec q (length (p_msgs s))); [|discriminate]. injection H as <- <-. split; [|discriminate].
      split; [cbn; rewrite app_length; cbn; lia|]. right. exists k, q, [], (PReq q).
      split; [exists e; split; [reflexivity|intros ? ? []]|]. split; [assumption|]. split; [cbn; now rewrite nth_put, Nat.eqb_refl, Ek|].
      left. split; [intros j p J; cbn [p_pcs]; rewrite nth_put; destruct (Nat.eqb_spec j k); [contradiction|now apply Ho]|].
      split; [exact W|]. split; [reflexivity|]. unfold cur, cell_of. cbn. rewrite app_nth2, Nat.sub_diag by lia. reflexivity.
    + injection H as <- <-. split; [|discriminate]. eapply D; reflexivity || exact W.
    + injection H as <- <-. split; [|discriminate]. eapply D; try reflexivity; try exact W. destruct (is_response (m_ESV m)); reflexivity.
    + injection H as <- <-. split; [|discriminate]. eapply D; reflexivity || exact W.
    + injection H as <- <-. split; [|discriminate]. eapply D; reflexivity || exact W.
    + injection H as <- <-. split; [|discriminate]. eapply D; try reflexivity; try exact W. destruct (k_req (cell_of s p)); reflexivity.
    + injection H as <- <-. split; [|discriminate]. eapply D; try reflexivity; try exact W. destruct (k_resp (cell_of s p)); reflexivity.
    + injection H as <- <-. split; [|discriminate]. eapply D; reflexivity || exact W.
    + destruct (k_req (cell_of s p)); injection H as <- <-; (split; [|discriminate]); eapply D; reflexivity || exact W.
    + injection H as <- <-. split; [|discriminate]. eapply D; try reflexivity; try exact W. destruct (tid_of s q =? m_TID m); reflexivity.
    + injection H as <- <-. split; [|discriminate]. eapply D; reflexivity || exact W.
    + injection H as <- <-. split; [|discriminate]. split; [cbn; rewrite length_put; exact LL|]. left. split; [now apply G|exact W].
    + destruct (p_lock s); [discriminate|]. injection H as <- <-. split; [|discriminate]. eapply D; reflexivity || exact W.
    + rewrite W in H. injection H as <- <-. split; [|discriminate]. eapply D; reflexivity || exact W.
    + injection H as <- <-. split; [|discriminate]. eapply D; reflexivity || exact W.
  - destruct (Nat.eq_dec k i) as [->|Nk].
    + (* the caller *)
      assert (pk = p) by congruence. subst pk. clear Ek.
      destruct C as [(OI & W & C)|C].
      * (* starting *)
        assert (OI' : forall s2 x, p_pcs s2 = put (p_pcs s) i x -> others_idle s2 i).
        { intros s2 x E j p' J. rewrite E, nth_put. destruct (Nat.eqb_spec j i); [contradiction|now apply OI]. }
        destruct p; cbn [starting] in C; try contradiction; destruct a; try discriminate H.
        -- destruct C as (-> & Cc). injection H as <- <-. split; [|discriminate]. rewrite app_nil_r. split; [exact LL|]. right. exists i, q, b, (PReqAt q (p_last s)).
           repeat split; auto. cbn; now rewrite nth_put, Nat.eqb_refl, Pi. left. repeat split; auto. eapply OI'; reflexivity.
        -- destruct C as (-> & -> & Cc). injection H as <- <-. split; [|discriminate]. rewrite app_nil_r. split; [cbn; now rewrite length_put|]. right. exists i, q, b, (PTid q).
           repeat split; auto. cbn; now rewrite nth_put, Nat.eqb_refl, Pi. left. repeat split; auto; [eapply OI'; reflexivity|].
           unfold cur, cell_of in *. cbn [p_last p_cells]. rewrite (cell_put s) by exact LL. rewrite Nat.eqb_refl, Cc. reflexivity.
        -- destruct C as (-> & Cc).
           assert (G : forall s2 t, p_last s2 = p_last s -> p_cells s2 = p_cells s -> length (p_msgs s2) = length (p_msgs s) -> p_waiters s2 = [] -> p_pcs s2 = put (p_pcs s) i (PSend q) -> inv s2 (e ++ [ETid i q t])).
           { intros s2 t H1 H2 H3 H4 H5. assert (Cu : cur s2 = cur s) by (unfold cur, cell_of; now rewrite H1, H2). split; [now rewrite H1, H2|]. right. exists i, q, (b ++ [ETid i q t]), (PSend q).
             split; [apply last_call_more; [exact LC|now apply nobegin_one]|]. split; [now rewrite H3|]. split; [rewrite H5, nth_put, Nat.eqb_refl, Pi; reflexivity|]. right.
             unfold late. rewrite Cu, Cc. cbn [k_req k_resp]. split; [reflexivity|]. split; [discriminate|]. split; [|split; [reflexivity|exact H4]].
             intros j p' J E. rewrite (OI' s2 _ H5 j p' J E). exact I. }
           destruct (tid_of s q =? 0); [cbv [next_TID] in H|]; injection H as <- <-; (split; [|discriminate]); apply G; auto. cbn. apply length_put.
      * pose proof C as C0. destruct C as (K & R & O & P).
        assert (SS : forall l w x, same_shared s (mkpst (p_tid s) (p_msgs s) (p_cells s) (p_last s) l w (put (p_pcs s) i x))) by (intros; repeat split).
        destruct p; cbn [ppc] in P; try contradiction; destruct a as [| | | ok |]; try discriminate H.
        -- (* send *) destruct P as (-> & W). destruct ok; injection H as <- <-; (split; [|discriminate]); (eapply late_self; [exact LC|exact Q|exact Pi|exact C0|exact LL|now apply nobegin_one|apply SS|reflexivity|]);
             cbn [ppc p_waiters]; repeat split; auto using in_last.
        -- injection H as <- <-. split; [|discriminate]. eapply late_end; [exact Pi|exact C0|exact LL|apply SS|apply P|reflexivity].
        -- (* PNone *) destruct P as (-> & W & U). injection H as <- <-. split; [eapply late_end; [exact Pi|exact C0|exact LL|apply SS|exact W|reflexivity]|].
           intros i' q' r' [= <- <- <-]. exists b. split; [exact LC|]. left. exact U.
        -- (* PAcq *) destruct P as (-> & W & U). destruct (p_lock s); [discriminate|]. injection H as <- <-. split; [|discriminate].
           eapply late_self; [exact LC|exact Q|exact Pi|exact C0|exact LL|apply nobegin_nil|apply SS|reflexivity|]. cbn [ppc p_waiters]. repeat split; auto using in_snoc.
        -- destruct P as (-> & W & U). injection H as <- <-. split; [|discriminate].
           eapply late_self; [exact LC|exact Q|exact Pi|exact C0|exact LL|apply nobegin_nil|apply SS|reflexivity|]. cbn [ppc p_waiters]. rewrite W. repeat split; auto using in_snoc.
        -- (* timeout *) destruct P as (-> & W & U). injection H as <- <-. split; [|discriminate].
           eapply late_self; [exact LC|exact Q|exact Pi|exact C0|exact LL|now apply nobegin_one|apply SS|reflexivity|]. cbn [ppc p_waiters]. repeat split; auto using in_snoc, in_last.
        -- (* wake *) destruct P as (-> & U & G). destruct (p_lock s); [discriminate|]. injection H as <- <-. split; [|discriminate].
           eapply late_self; [exact LC|exact Q|exact Pi|exact C0|exact LL|apply nobegin_nil|apply SS|reflexivity|]. cbn [ppc p_waiters]. split; [reflexivity|]. split; [apply in_snoc, U|].
           destruct got.
           ++ destruct G as (W & G). split; [exact W|]. left. exact G.
           ++ destruct G as (W & G). split; [destruct W as [-> | ->]; [cbn; now rewrite Nat.eqb_refl|reflexivity]|]. right. apply in_snoc, G.
        -- destruct P as (-> & U & W & G). injection H as <- <-. split; [|discriminate].
           eapply late_self; [exact LC|exact Q|exact Pi|exact C0|exact LL|apply nobegin_nil|apply SS|reflexivity|]. cbn [ppc p_waiters]. rewrite app_nil_r. repeat split; auto.
        -- destruct P as (-> & U & W & G). injection H as <- <-. split; [|discriminate].
           eapply late_self; [exact LC|exact Q|exact Pi|exact C0|exact LL|apply nobegin_nil|apply SS|reflexivity|]. cbn [ppc p_waiters]. rewrite app_nil_r. repeat split; auto.
        -- (* return *) destruct P as (-> & U & W & G & ->). injection H as <- <-. split; [eapply late_end; [exact Pi|exact C0|exact LL|apply SS|exact W|reflexivity]|].
           intros i' q' r' E. assert (i' = i /\ q' = q /\ r' = k_resp (cur s)) as (-> & -> & ->) by (unfold cur; repeat split; congruence).
           exists b. split; [exact LC|]. unfold right_return. destruct (k_resp (cur s)) as [m|] eqn:Er.
           ++ destruct (R m eq_refl) as (R1 & R2 & R3). split; [exact R1|]. rewrite R2. split; [exact U|exact R3].
           ++ right. destruct G; [congruence|assumption].
    + (* another thread *)
      assert (Np : early p = false) by (apply (Hf i); auto).
      destruct C as [(_ & _ & C)|C]; [destruct p; cbn in Np, C; try contradiction; discriminate|].
      pose proof C as C0. destruct C as (K & R & O & P).
      assert (Kp := O k pk Nk Ek).
      assert (SS : forall l w x, same_shared s (mkpst (p_tid s) (p_msgs s) (p_cells s) (p_last s) l w (put (p_pcs s) k x))) by (intros; repeat split).
      assert (Lo : forall ev2 l x, nobegin ev2 -> rpc s q (b ++ ev2) x -> inv (mkpst (p_tid s) (p_msgs s) (p_cells s) (p_last s) l (p_waiters s) (put (p_pcs s) k x)) (e ++ ev2)).
      { intros ev2 l x NB X. eapply late_other; [exact LC|exact Q|exact Pi|exact C0|exact LL|exact Nk|exact NB|apply SS|reflexivity|reflexivity|exact X]. }
      destruct pk; cbn [rpc] in Kp; try contradiction; destruct a; try discriminate H.
      * (* APost *) exfalso. pose proof (Ho i p (fun x => Nk (eq_sym x)) Pi) as X. subst p. exact P.
      * injection H as <- <-. split; [|discriminate]. apply Lo; [now apply nobegin_one|]. exists k. apply in_last.
      * injection H as <- <-. split; [|discriminate]. apply Lo; [apply nobegin_nil|]. destruct (is_response (m_ESV m)) eqn:E; [|exact I]. split; [now apply is_response_iff|now apply arrived_more].
      * injection H as <- <-. split; [|discriminate]. apply Lo; [now apply nobegin_one|exact I].
      * injection H as <- <-. split; [|discriminate]. apply Lo; [apply nobegin_nil|]. rewrite app_nil_r. cbn. auto.
      * injection H as <- <-. split; [|discriminate]. apply Lo; [apply nobegin_nil|]. rewrite app_nil_r. destruct (k_req (cell_of s p0)); [exact Kp|exact I].
      * injection H as <- <-. split; [|discriminate]. apply Lo; [apply nobegin_nil|]. rewrite app_nil_r. destruct (k_resp (cell_of s p0)); [exact I|apply Kp].
      * injection H as <- <-. split; [|discriminate]. apply Lo; [apply nobegin_nil|]. rewrite app_nil_r. cbn. auto.
      * destruct Kp as (-> & Kp). change (cell_of s (p_last s)) with (cur s) in H. rewrite K in H. injection H as <- <-. split; [|discriminate]. apply Lo; [apply nobegin_nil|]. rewrite app_nil_r. cbn. auto.
      * destruct Kp as (-> & Kp & Ka). injection H as <- <-. split; [|discriminate]. apply Lo; [apply nobegin_nil|]. rewrite app_nil_r. destruct (Z.eqb_spec (tid_of s q) (m_TID m)); [|exact I]. split; [exact Kp|]. split; [congruence|exact Ka].
      * injection H as <- <-. split; [|discriminate]. apply Lo; [apply nobegin_nil|]. rewrite app_nil_r. cbn. auto.
      * (* store *) destruct Kp as (-> & Kp). injection H as <- <-. split; [|discriminate]. rewrite app_nil_r. set (s2 := mkpst _ _ _ _ _ _ _).
        assert (Cu : cur s2 = mkcell (Some q) (Some m)).
        { unfold cur, cell_of, s2. cbn [p_last p_cells]. rewrite (cell_put s) by exact LL. rewrite Nat.eqb_refl. unfold cur in K. now rewrite K. }
        split; [cbn; now rewrite length_put|]. right. exists i, q, b, p. split; [exact LC|]. split; [exact Q|].
        split; [cbn; rewrite nth_put; destruct (Nat.eqb_spec i k); [congruence|exact Pi]|]. right. unfold late. rewrite Cu. cbn [k_req k_resp].
        split; [reflexivity|]. split; [intros m' [= <-]; exact Kp|]. split.
        -- intros j p' J. cbn [s2 p_pcs]. rewrite nth_put, Ek. destruct (Nat.eqb_spec j k).
           ++ intros X. assert (p' = RAcq m) by congruence. subst p'. cbn [rpc]. rewrite Cu. discriminate.
           ++ intros X. rewrite <- (app_nil_r b). apply (rpc_more s); auto; [rewrite Cu; discriminate|eauto].
        -- rewrite <- (app_nil_r b). apply (ppc_more s); auto. rewrite Cu; discriminate.
      * destruct (p_lock s); [discriminate|]. injection H as <- <-. split; [|discriminate]. apply Lo; [apply nobegin_nil|exact Kp].
      * (* notify *) destruct (p_waiters s) as [|w ws] eqn:W.
        -- injection H as <- <-. split; [|discriminate]. apply Lo; [apply nobegin_nil|exact I].
        -- assert (w = i /\ ws = []) as (-> & ->).
           { repeat split; destruct p; cbn [ppc] in P; try contradiction; try (destruct got); rewrite W in P; intuition congruence. }
           injection H as <- <-. split; [|discriminate]. rewrite app_nil_r. set (s2 := mkpst _ _ _ _ _ _ _).
           assert (Oth : forall j p', j <> i -> nth_error (p_pcs s2) j = Some p' -> rpc s2 q b p').
           { intros j p' J. cbn [s2 p_pcs]. rewrite nth_put, !nth_wake, Ek. destruct (Nat.eqb_spec j k); [intros X; assert (p' = RRel m) by congruence; subst p'; exact I|].
             destruct (Nat.eqb_spec j i); [contradiction|]. intros X. rewrite <- (app_nil_r b). apply (rpc_more s); auto. apply (O j); [exact J|]. destruct (nth_error (p_pcs s) j) as [[]|]; congruence. }
           assert (Pc : nth_error (p_pcs s2) i = Some (match p with PSleep q' => PWake q' true | x => x end)).
           { cbn [s2 p_pcs]. rewrite nth_put, !nth_wake. destruct (Nat.eqb_spec i k); [congruence|]. rewrite Pi, Nat.eqb_refl. destruct p; reflexivity. }
           split; [exact LL|]. right. eexists i, q, b, _. split; [exact LC|]. split; [exact Q|]. split; [exact Pc|]. right.
           split; [exact K|]. split; [exact R|]. split; [exact Oth|].
           destruct p; cbn [ppc] in P |- *; try contradiction; try (destruct got); rewrite W in P; cbn [s2 p_waiters]; try (intuition congruence).
      * injection H as <- <-. split; [|discriminate]. apply Lo; [apply nobegin_nil|exact I].
Qed.
Lemma inv_run sched : forall s e s' evs, inv s e -> orderly early s sched -> prun s sched = (s', evs) ->
  inv s' (e ++ evs) /\
  forall e1 i q r e2, evs = e1 ++ EReturn i q r :: e2 -> exists b, last_call (e ++ e1) i q b /\ right_return i q r b.
Proof.
  induction sched as [|[k a] sched IH]; intros s e s' evs I O H; cbn [prun orderly] in *.
  - injection H as <- <-. rewrite app_nil_r. split; [exact I|]. intros [|? ?]; discriminate.
  - destruct (pstep s k a) as [[s1 ev]|] eqn:E; [|apply (IH s e); auto]. destruct O as (O1 & O2 & O3).
    destruct (prun s1 sched) as [s2 evs2] eqn:E2. injection H as <- <-.
    destruct (inv_step s e k a s1 ev I E O1 O2) as (I1 & G). destruct (IH s1 (e ++ ev) s2 evs2 I1 O3 E2) as (I2 & G2). rewrite <- app_assoc in I2.
    split; [exact I2|]. intros e1 i q r e2 X.
    assert (Ev : ev = [] \/ exists x, ev = [x]).
    { unfold pstep in E. destruct (nth_error (p_pcs s) k) as [pk|]; [|discriminate].
      destruct pk, a; try discriminate E; repeat match type of E with context[match ?c with _ => _ end] => destruct c; try discriminate E end; injection E as _ <-; eauto. }
    destruct Ev as [->|(x & ->)].
    + cbn [app] in X. rewrite app_nil_r in G2. eapply G2; eauto.
    + destruct e1 as [|y e1]; cbn [app] in X.
      * injection X as -> _. rewrite app_nil_r. now apply G.
      * injection X as <- X. replace (e ++ x :: e1) with ((e ++ [x]) ++ e1) by now rewrite <- app_assoc. eapply G2; eauto.
Qed.
Lemma inv_new n l : inv (new_post n l) [].
Proof.
  split; [cbn; lia|]. left. split; [|reflexivity]. cbn. intros j p H. apply nth_error_In, repeat_spec in H. subst p. reflexivity.
Qed.
Lemma L_C51_orderly_partial : forall n l sched s' evs, one_poster sched -> orderly early (new_post n l) sched ->
  prun (new_post n l) sched = (s', evs) -> returns_right evs.
Proof.
  intros n l sched s' evs _ O H e1 i q r e2 X. destruct (inv_run sched _ [] _ _ (inv_new n l) O H) as (_ & G). eapply G; eauto.
Qed.
Lemma L_C53_orderly_partial : forall n l sched s' evs, orderly early (new_post n l) sched ->
  prun (new_post n l) sched = (s', evs) -> returns_right evs.
Proof.
  intros n l sched s' evs O H e1 i q r e2 X. destruct (inv_run sched _ [] _ _ (inv_new n l) O H) as (_ & G). eapply G; eauto.
Qed.

(** ** Every schedule *)
Section Any.
Context (l0 : list Z).
Definition begun_q (e : list pev) (q : nat) : Prop := exists i, In (EBegin i q) e.
(** [t] is or was the TID of a posted message object. *)
Definition had_tid (e : list pev) (q : nat) (t : Z) : Prop := t = nth q l0 0 \/ exists i, In (ETid i q t) e.
Definition okm (e : list pev) (m : msg) : Prop :=
  response m /\ arrived e m /\ exists q, begun_q e q /\ had_tid e q (m_TID m).
Definition jpc (e : list pev) (p : pc) : Prop :=
  match p with
  | PReq q | PReqAt q _ => begun_q e q
  | RPre m => arrived e m
  | RLast1 m | RReq1 m _ | RResp1 m _ | RLast2 m | RReq2 m _ => response m /\ arrived e m
  | RTid m q => response m /\ arrived e m /\ begun_q e q
  | RLast3 m | RStore m _ => okm e m
  | _ => True
  end.
Definition jcell (e : list pev) (c : cell) : Prop :=
  (forall q, k_req c = Some q -> begun_q e q) /\ (forall m, k_resp c = Some m -> okm e m).
Definition jinv (s : pst) (e : list pev) : Prop :=
  (forall q, had_tid e q (tid_of s q)) /\ Forall (jcell e) (p_cells s) /\ forall j p, nth_error (p_pcs s) j = Some p -> jpc e p.
Lemma begun_q_more e ev q : begun_q e q -> begun_q (e ++ ev) q.
Proof. intros (i & I). exists i. now apply in_snoc. Qed.
Lemma had_more e ev q t : had_tid e q t -> had_tid (e ++ ev) q t.
Proof. intros [H|(i & I)]; [now left|right; exists i; now apply in_snoc]. Qed.
Lemma okm_more e ev m : okm e m -> okm (e ++ ev) m.
Proof. intros (R & A & q & B & H). repeat split; auto using arrived_more. exists q. auto using begun_q_more, had_more. Qed.
Lemma jpc_more e ev p : jpc e p -> jpc (e ++ ev) p.
Proof. destruct p; cbn [jpc]; intuition auto using begun_q_more, okm_more, arrived_more. Qed.
Lemma jcell_more e ev c : jcell e c -> jcell (e ++ ev) c.
Proof. intros (A & B). split; intros; [apply begun_q_more; eauto|apply okm_more; eauto]. Qed.
Lemma Forall_put {A} (P : A -> Prop) l i x : Forall P l -> P x -> Forall P (put l i x).
Proof. intros H X. revert i. induction H; intros [|i]; cbn; constructor; auto. Qed.
Lemma jcell_of s e p : jinv s e -> jcell e (cell_of s p).
Proof.
  intros (_ & C & _). unfold cell_of. destruct (nth_in_or_default p (p_cells s) (mkcell None None)) as [H|H].
  - rewrite Forall_forall in C. now apply C.
  - rewrite H. split; cbn; discriminate.
Qed.
Lemma jinv_step s e k a s' ev : jinv s e -> pstep s k a = Some (s', ev) -> jinv s' (e ++ ev) /\
  forall i q m, ev = [EReturn i q (Some m)] -> okm e m.
Proof.
  intros J H. pose proof J as (T & C & P). pose proof (jcell_of s e) as JC.
  destruct (nth_error (p_pcs s) k) as [pk|] eqn:Ek; [|unfold pstep in H; rewrite Ek in H; discriminate].
  unfold pstep in H. rewrite Ek in H. pose proof (P k pk Ek) as Pk.
  assert (G : forall s2 ev2 x cs, p_msgs s2 = p_msgs s -> p_cells s2 = cs -> Forall (jcell (e ++ ev2)) cs -> p_pcs s2 = put (p_pcs s) k x -> jpc (e ++ ev2) x -> jinv s2 (e ++ ev2)).
  { intros s2 ev2 x cs H1 H2 H3 H4 H5. split; [intros q; unfold tid_of; rewrite H1; apply had_more, T|]. split; [now rewrite H2|].
    intros j p. rewrite H4, nth_put, Ek. destruct (Nat.eqb_spec j k); intros X; [assert (p = x) by congruence; now subst p|apply jpc_more; eauto]. }
  assert (C' : forall ev2, Forall (jcell (e ++ ev2)) (p_cells s)).
  { intros ev2. eapply Forall_impl; [|exact C]. intros c. apply jcell_more. }
  destruct pk; destruct a as [| q' | m' | ok |]; try discriminate H.
  - destruct (Nat.ltb q' (length (p_msgs s))); [|discriminate]. injection H as <- <-. split; [|discriminate].
    eapply G; try reflexivity; [|exists k; apply in_last]. apply Forall_app. split; [apply C'|]. repeat constructor; cbn; discriminate.
  - injection H as <- <-. split; [|discriminate]. eapply G; try reflexivity; [apply C'|]. exists k; apply in_last.
  - injection H as <- <-. split; [|discriminate]. eapply G; try reflexivity; [apply C'|]. now apply (jpc_more e []) in Pk.
  - injection H as <- <-. split; [|discriminate]. eapply G; try reflexivity. apply Forall_put; [apply C'|]. apply jcell_more. split; [intros q0 [= <-]; exact Pk|]. apply (JC p); exact J.
  - destruct (tid_of s q =? 0) eqn:Z0; [|injection H as <- <-; split; [|discriminate]; eapply G; try reflexivity; apply C'].
    cbv [next_TID] in H. injection H as <- <-. split; [|discriminate]. split; [|split; [apply C'|]].
    + intros q0. unfold tid_of. cbn [p_msgs]. destruct (Nat.eq_dec q0 q) as [->|N].
      * destruct (Nat.ltb_spec q (length (p_msgs s))) as [L|L].
        -- rewrite tid_put by exact L. right. exists k. apply in_last.
        -- assert (X : put (p_msgs s) q (if 0xFFFF <? p_tid s + 1 then 1 else p_tid s + 1) = p_msgs s).
           { generalize (if 0xFFFF <? p_tid s + 1 then 1 else p_tid s + 1). revert L. generalize (p_msgs s). clear. intros l. revert q. induction l as [|y l IH]; intros [|q] L z; cbn in *; try reflexivity; [lia|]. rewrite IH; [reflexivity|lia]. }
           cbn [g_tid] in *. rewrite X. apply had_more, T.
      * replace (nth q0 _ 0) with (tid_of s q0); [apply had_more, T|]. unfold tid_of. revert N. generalize (p_msgs s) q0 q. clear. intros l. induction l as [|y l IH]; intros q0 q N; destruct q0, q; cbn; try reflexivity; try congruence. apply IH. congruence.
    + cbn [p_pcs]. intros j p. rewrite nth_put, Ek. destruct (Nat.eqb_spec j k); intros X; [assert (p = PSend q) by congruence; subst p; exact I|apply jpc_more; eauto].
  - destruct ok; injection H as <- <-; (split; [|discriminate]); (eapply G; try reflexivity; try apply C'; exact I).
  - injection H as <- <-; (split; [|discriminate]); (eapply G; try reflexivity; try apply C'; exact I).
  - injection H as <- <-; (split; [|discriminate]); (eapply G; try reflexivity; try apply C'; exact I).
  - destruct (p_lock s); [discriminate|]. injection H as <- <-; (split; [|discriminate]); (eapply G; try reflexivity; try apply C'; exact I).
  - injection H as <- <-; (split; [|discriminate]); (eapply G; try reflexivity; try apply C'; exact I).
  - injection H as <- <-; (split; [|discriminate]); (eapply G; try reflexivity; try apply C'; exact I).
  - destruct (p_lock s); [discriminate|]. injection H as <- <-; (split; [|discriminate]); (eapply G; try reflexivity; try apply C'; exact I).
  - injection H as <- <-; (split; [|discriminate]); (eapply G; try reflexivity; try apply C'; exact I).
  - injection H as <- <-; (split; [|discriminate]); (eapply G; try reflexivity; try apply C'; exact I).
  - injection H as <- <-. split; [eapply G; try reflexivity; try apply C'; exact I|]. intros i' q0 m E. assert (X : k_resp (cell_of s p) = Some m) by congruence. exact (proj2 (JC p J) m X).
  - injection H as <- <-. split; [|discriminate]. eapply G; try reflexivity; [apply C'|]. destruct (is_response (m_ESV m)) eqn:E; [|exact I]. split; [now apply is_response_iff|now apply arrived_more].
  - injection H as <- <-. split; [|discriminate]. eapply G; try reflexivity; try apply C'; exact I.
  - injection H as <- <-. split; [|discriminate]. eapply G; try reflexivity; [apply C'|]. now apply (jpc_more e []) in Pk.
  - injection H as <- <-. split; [|discriminate]. eapply G; try reflexivity; [apply C'|]. destruct (k_req (cell_of s p)); [|exact I]. now apply (jpc_more e []) in Pk.
  - injection H as <- <-. split; [|discriminate]. eapply G; try reflexivity; [apply C'|]. destruct (k_resp (cell_of s p)); [exact I|]. now apply (jpc_more e []) in Pk.
  - injection H as <- <-. split; [|discriminate]. eapply G; try reflexivity; [apply C'|]. now apply (jpc_more e []) in Pk.
  - destruct (k_req (cell_of s p)) eqn:E; injection H as <- <-; (split; [|discriminate]); eapply G; try reflexivity; try apply C'.
    rewrite app_nil_r. destruct Pk. repeat split; auto. exact (proj1 (JC p J) n E).
  - injection H as <- <-. split; [|discriminate]. eapply G; try reflexivity; [apply C'|]. rewrite app_nil_r. destruct (Z.eqb_spec (tid_of s q) (m_TID m)) as [E|]; [|exact I].
    destruct Pk as (R & A & B). repeat split; auto. exists q. split; [exact B|]. rewrite <- E. apply T.
  - injection H as <- <-. split; [|discriminate]. eapply G; try reflexivity; [apply C'|]. now apply (jpc_more e []) in Pk.
  - injection H as <- <-. split; [|discriminate]. eapply G; try reflexivity. apply Forall_put; [apply C'|]. apply jcell_more. split; [apply (JC p); exact J|]. intros m0 [= <-]. exact Pk.
  - destruct (p_lock s); [discriminate|]. injection H as <- <-; (split; [|discriminate]); (eapply G; try reflexivity; try apply C'; exact I).
  - destruct (p_waiters s) as [|w ws]; injection H as <- <-; (split; [|discriminate]); [eapply G; try reflexivity; try apply C'; exact I|].
    rewrite app_nil_r. split; [exact T|]. split; [exact C|]. cbn [p_pcs]. intros j p. rewrite nth_put, !nth_wake, Ek.
    destruct (Nat.eqb_spec j k); intros X; [assert (p = RRel m) by congruence; subst p; exact I|].
    destruct (nth_error (p_pcs s) j) as [p'|] eqn:Ej; [|discriminate]. specialize (P j p' Ej).
    destruct p'; try (assert (p = p') by congruence; subst p; exact P); try (injection X as <-; exact P). destruct (Nat.eqb j w); injection X as <-; exact I.
  - injection H as <- <-; (split; [|discriminate]); (eapply G; try reflexivity; try apply C'; exact I).
Qed.
End Any.
Lemma jinv_run l0 sched : forall s e s' evs, jinv l0 s e -> prun s sched = (s', evs) ->
  forall e1 i q m e2, evs = e1 ++ EReturn i q (Some m) :: e2 -> okm l0 (e ++ e1) m.
Proof.
  induction sched as [|[k a] sched IH]; intros s e s' evs I H; cbn [prun] in *.
  - injection H as <- <-. intros [|? ?]; discriminate.
  - destruct (pstep s k a) as [[s1 ev]|] eqn:E; [|apply (IH s e s'); auto].
    destruct (prun s1 sched) as [s2 evs2] eqn:E2. injection H as <- <-.
    destruct (jinv_step l0 s e k a s1 ev I E) as (I1 & G). specialize (IH s1 (e ++ ev) s2 evs2 I1 E2).
    intros e1 i q m e2 X.
    assert (Ev : ev = [] \/ exists x, ev = [x]).
    { unfold pstep in E. destruct (nth_error (p_pcs s) k) as [pk|]; [|discriminate].
      destruct pk, a; try discriminate E; repeat match type of E with context[match ?c with _ => _ end] => destruct c; try discriminate E end; injection E as _ <-; eauto. }
    destruct Ev as [->|(x & ->)].
    + cbn [app] in X. rewrite app_nil_r in IH. eapply IH; eauto.
    + destruct e1 as [|y e1]; cbn [app] in X.
      * injection X as -> _. rewrite app_nil_r. eapply G; eauto.
      * injection X as <- X. replace (e ++ x :: e1) with ((e ++ [x]) ++ e1) by now rewrite <- app_assoc. eapply IH; eauto.
Qed.
Lemma L_C51_any_partial : forall n l sched s' evs e1 i q m e2, prun (new_post n l) sched = (s', evs) ->
  evs = e1 ++ EReturn i q (Some m) :: e2 ->
  response m /\ (exists j, In (EArrive j m) e1) /\
  exists i' q', In (EBegin i' q') e1 /\ (m_TID m = nth q' l 0 \/ exists j, In (ETid j q' (m_TID m)) e1).
Proof.
  intros n l sched s' evs e1 i q m e2 H X.
  assert (J : jinv l (new_post n l) []).
  { split; [intros q0; now left|]. split; [repeat constructor; cbn; discriminate|]. cbn. intros j p E. apply nth_error_In, repeat_spec in E. subst p. exact I. }
  destruct (jinv_run l sched _ [] s' evs J H e1 i q m e2 X) as (R & A & q' & (i' & B) & T). split; [exact R|]. split; [exact A|]. exists i', q'. auto.
Qed.

(** ** Lost wake-up *)
Definition lost (s : pst) : Prop :=
  nth_error (p_pcs s) 0 = Some (PSleep 0) /\ k_resp (cur s) <> None /\
  forall j p, j <> 0%nat -> nth_error (p_pcs s) j = Some p ->
    match p with PIdle | RPre _ | RLast1 _ => True | RReq1 _ p' | RResp1 _ p' => p' = p_last s | _ => False end.
Lemma lost_step s k a s' ev : lost s -> pstep s k a = Some (s', ev) -> (match a with APost _ => k = 0%nat | _ => True end) ->
  ev = [ETimeout 0 0] \/ lost s' /\ forall i q r, ~ In (EReturn i q r) ev.
Proof.
  intros (L1 & L2 & L3) H A. unfold pstep in H. destruct (Nat.eq_dec k 0) as [->|N].
  - rewrite L1 in H. destruct a; try discriminate. left. congruence.
  - destruct (nth_error (p_pcs s) k) as [pk|] eqn:Ek; [|discriminate]. specialize (L3 k pk N Ek) as Lk. right.
    assert (G : forall l x, match x with PIdle | RPre _ | RLast1 _ => True | RReq1 _ p' | RResp1 _ p' => p' = p_last s | _ => False end ->
      lost (mkpst (p_tid s) (p_msgs s) (p_cells s) (p_last s) l (p_waiters s) (put (p_pcs s) k x))).
    { intros l x X. split; [cbn [p_pcs]; rewrite nth_put; destruct (Nat.eqb_spec 0 k); [congruence|exact L1]|]. split; [exact L2|].
      cbn [p_pcs]. intros j p J. rewrite nth_put, Ek. destruct (Nat.eqb_spec j k); intros Y; [assert (p = x) by congruence; subst p; exact X|exact (L3 j p J Y)]. }
    destruct pk; try contradiction; destruct a; try discriminate H; try contradiction; try congruence.
    + injection H as <- <-. split; [now apply G|]. intros i q r [X|[]]; discriminate.
    + injection H as <- <-. split; [apply G; now destruct (is_response (m_ESV m))|intros ? ? ? []].
    + injection H as <- <-. split; [now apply G|]. intros i q r [X|[]]; discriminate.
    + injection H as <- <-. split; [now apply G|intros ? ? ? []].
    + injection H as <- <-. split; [apply G; now destruct (k_req (cell_of s p))|intros ? ? ? []].
    + subst p. change (cell_of s (p_last s)) with (cur s) in H. destruct (k_resp (cur s)); [|congruence]. injection H as <- <-. split; [now apply G|intros ? ? ? []].
Qed.
Lemma lost_run sched : forall s s' evs, lost s -> (forall i q, In (i, APost q) sched -> i = 0%nat) -> prun s sched = (s', evs) ->
  forall e1 i q r e2, evs = e1 ++ EReturn i q r :: e2 -> In (ETimeout 0 0) e1.
Proof.
  induction sched as [|[k a] sched IH]; intros s s' evs L O H; cbn [prun] in H.
  - injection H as <- <-. intros [|? ?]; discriminate.
  - assert (O' : forall i q, In (i, APost q) sched -> i = 0%nat) by (intros; eapply O; right; eauto).
    destruct (pstep s k a) as [[s1 ev]|] eqn:E; [|eauto]. destruct (prun s1 sched) as [s2 evs2] eqn:E2. injection H as <- <-.
    assert (A : match a with APost _ => k = 0%nat | _ => True end) by (destruct a; auto; eapply O; left; reflexivity).
    intros e1 i q r e2 X. destruct (lost_step s k a s1 ev L E A) as [->|(L1 & N)].
    + destruct e1 as [|y e1]; cbn [app] in X; [discriminate|]. injection X as <- _. now left.
    + assert (Y : exists e1', e1 = ev ++ e1' /\ evs2 = e1' ++ EReturn i q r :: e2).
      { clear -X N. revert e1 X. induction ev as [|y ev IH]; intros e1 X; [exists e1; auto|]. destruct e1 as [|z e1]; cbn [app] in X.
        - injection X as -> _. exfalso. eapply N. now left.
        - injection X as <- X. destruct (IH (fun a b c I => N a b c (or_intror I)) e1 X) as (e1' & -> & Y). exists e1'. auto. }
      destruct Y as (e1' & -> & Y). apply in_app_iff. right. eapply IH; eauto.
Qed.
Lemma L_C54_lost_refuted : exists sched s' evs m, one_poster sched /\ prun (new_post 2 [0]) sched = (s', evs) /\
  In (ESent 0 0 1) evs /\ In (EArrive 1 m) evs /\ response m /\ m_TID m = 1 /\
  forall sched2 s2 evs2 e1 i q r e2, one_poster sched2 -> prun s' sched2 = (s2, evs2) ->
  evs2 = e1 ++ EReturn i q r :: e2 -> In (ETimeout 0 0) e1.
Proof.
  exists ((0%nat, APost 0) :: st 0 3 ++ [(0%nat, ASend true)] ++ handle 1 (rsp 1) ++ st 0 2). eexists _, _, (rsp 1).
  split; [|split; [vm_compute; reflexivity|]].
  - intros i a I. cbn in I. repeat (destruct I as [E|I]; [injection E as <- <-; auto; discriminate|]). contradiction.
  - split; [inn|]. split; [inn|]. split; [intros X; cbn in X; intuition discriminate|]. split; [reflexivity|].
    intros sched2 s2 evs2 e1 i q r e2 O H X. eapply lost_run; [|intros i' q' I; apply (O i' (APost q')); exact I|exact H|exact X].
    split; [reflexivity|]. split; [discriminate|]. intros [|[|j]] p J E; [contradiction| |destruct j; discriminate]. cbn in E. injection E as <-. exact I.
Qed.

(** ** No lost wake-up if the caller sleeps first *)
Lemma last_call_inv e x i q b' : last_call (e ++ [x]) i q b' ->
  (x = EBegin i q /\ b' = []) \/ exists b, b' = b ++ [x] /\ last_call e i q b /\ nobegin [x].
Proof.
  intros (a & E & N). destruct b' as [|y b'] using rev_ind.
  - left. apply app_inj_tail in E. destruct E as (_ & ->). auto.
  - right. clear IHb'. change (a ++ EBegin i q :: b' ++ [y]) with (a ++ (EBegin i q :: b') ++ [y]) in E. rewrite app_assoc in E. apply app_inj_tail in E. destruct E as (-> & ->).
    exists b'. split; [reflexivity|]. split.
    + exists a. split; [reflexivity|]. intros j p I. apply (N j p). apply in_app_iff; auto.
    + intros j p I. apply (N j p). apply in_app_iff; auto.
Qed.
Lemma last_call_unique e : forall i q b i' q' b', last_call e i q b -> last_call e i' q' b' -> i = i' /\ q = q' /\ b = b'.
Proof.
  induction e as [|x e IH] using rev_ind; intros i q b i' q' b' H H'.
  - destruct H as (a & E & _). destruct a; discriminate.
  - apply last_call_inv in H, H'. destruct H as [(-> & ->)|(b1 & -> & H & N)]; destruct H' as [(E & ->)|(b2 & -> & H' & N')].
    + injection E as -> ->. auto.
    + exfalso. eapply N'. now left.
    + subst x. exfalso. eapply N. now left.
    + destruct (IH _ _ _ _ _ _ H H') as (-> & -> & ->). auto.
Qed.
Definition handling (m : msg) (p : pc) : Prop :=
  match p with
  | RPre m' | RLast1 m' | RReq1 m' _ | RResp1 m' _ | RLast2 m' | RReq2 m' _ | RTid m' _ | RLast3 m' | RStore m' _ => m' = m
  | _ => False
  end.
Definition notifying (p : pc) : Prop := match p with RAcq _ | RNotify _ => True | _ => False end.
Definition ext (s : pst) (e : list pev) : Prop := forall i q b p, last_call e i q b -> nth_error (p_pcs s) i = Some p -> posting p = true ->
  (before_sleep p = true -> others_idle s i /\ forall j m, ~ In (EArrive j m) b) /\
  (early p = true -> forall i' q' t, ~ In (ESent i' q' t) b) /\
  (early p = false -> forall i' q' t, In (ESent i' q' t) b -> t = tid_of s q) /\
  (forall q', p = PSleep q' ->
    (k_resp (cur s) <> None -> exists j p', nth_error (p_pcs s) j = Some p' /\ notifying p') /\
    (forall j m, In (EArrive j m) b -> response m -> m_TID m = tid_of s q ->
       k_resp (cur s) <> None \/ In (ERaise j) b \/ exists p', nth_error (p_pcs s) j = Some p' /\ handling m p')).

Lemma step_events s k a s' ev : pstep s k a = Some (s', ev) -> ev = [] \/ exists x, ev = [x].
Proof.
  intros E. unfold pstep in E. destruct (nth_error (p_pcs s) k) as [pk|]; [|discriminate].
  destruct pk, a; try discriminate E; repeat match type of E with context[match ?c with _ => _ end] => destruct c; try discriminate E end; injection E as _ <-; eauto.
Qed.
Lemma step_begin s k a s' ev i q : pstep s k a = Some (s', ev) -> In (EBegin i q) ev ->
  a = APost q /\ i = k /\ nth_error (p_pcs s) k = Some PIdle /\ p_pcs s' = put (p_pcs s) k (PReq q) /\ ev = [EBegin k q].
Proof.
  intros E I. unfold pstep in E. destruct (nth_error (p_pcs s) k) as [pk|]; [|discriminate].
  destruct pk, a; try discriminate E; repeat match type of E with context[match ?c with _ => _ end] => destruct c; try discriminate E end; injection E as <- <-; cbn in I; try contradiction;
    destruct I as [X|[]]; try discriminate X. injection X as -> ->. auto.
Qed.

Lemma late_posting s i q b p : late s i q b p -> posting p = true.
Proof. intros (_ & _ & _ & P). destruct p; try reflexivity; contradiction. Qed.
Lemma rpc_not_posting s q b p : rpc s q b p -> posting p = false.
Proof. destruct p; try reflexivity; contradiction. Qed.
(** The pc of a thread that does not step. *)
Lemma step_pcs s k a s' ev : pstep s k a = Some (s', ev) -> forall j, j <> k ->
  nth_error (p_pcs s') j = nth_error (p_pcs s) j \/
  exists m q, nth_error (p_pcs s) k = Some (RNotify m) /\ hd_error (p_waiters s) = Some j /\ nth_error (p_pcs s) j = Some (PSleep q) /\ nth_error (p_pcs s') j = Some (PWake q true).
Proof.
  intros E j J. unfold pstep in E. destruct (nth_error (p_pcs s) k) as [pk|] eqn:Ek; [|discriminate].
  destruct pk, a; try discriminate E; repeat match type of E with context[match ?c with _ => _ end] => destruct c; try discriminate E end; injection E as <- <-; cbn [p_pcs];
   rewrite nth_put; destruct (Nat.eqb_spec j k); try contradiction; auto.
  rewrite nth_wake. destruct (nth_error (p_pcs s) j) as [[]|]; auto. destruct (Nat.eqb_spec j n) as [->|]; auto. right. exists m, q. auto.
Qed.

Lemma ext_step s e k a s' ev : inv s e -> ext s e -> pstep s k a = Some (s', ev) ->
  match a with APost _ => others_idle s k | _ => True end ->
  (forall j p, j <> k -> nth_error (p_pcs s) j = Some p -> before_sleep p = false) ->
  ext s' (e ++ ev).
Proof.
  intros Iv X H Ho Hf i q b' p' LC' Pi' Po.
  assert (Cs : (exists b, b' = b ++ ev /\ last_call e i q b /\ nobegin ev) \/ ev = [EBegin i q] /\ b' = []).
  { destruct (step_events s k a s' ev H) as [->|(x & ->)].
    - left. exists b'. rewrite !app_nil_r in *. split; [reflexivity|]. split; [exact LC'|apply nobegin_nil].
    - apply last_call_inv in LC'. destruct LC' as [(-> & ->)|(b & -> & LC & NB)]; [right; auto|left; exists b; auto]. }
  destruct Cs as [(b & -> & LC & NB)|(-> & ->)].
  2: { destruct (step_begin s k a s' _ i q H (or_introl eq_refl)) as (-> & -> & Ek & Ps & _). rewrite Ps, nth_put, Nat.eqb_refl, Ek in Pi'.
       assert (p' = PReq q) by congruence. subst p'. split; [|split; [|split]].
       - intros _. split; [|auto]. intros j p J. rewrite Ps, nth_put. destruct (Nat.eqb_spec j k); [contradiction|now apply Ho].
       - auto.
       - discriminate.
       - discriminate. }
  clear LC'. destruct (nth_error (p_pcs s) k) as [pk|] eqn:Ek; [|unfold pstep in H; rewrite Ek in H; discriminate].
  pose proof (step_pcs s k a s' ev H) as SP.
  destruct Iv as (LL & [(NP & W)|(i0 & q0 & b0 & p & LC0 & Q & Pi & C)]).
  - (* no call *) exfalso. pose proof (NP k pk Ek) as Nk. destruct (Nat.eq_dec i k) as [->|N].
    + assert (S : p' = PIdle \/ posting p' = false); [|destruct S as [->|S]; [discriminate|congruence]].
      unfold pstep in H. rewrite Ek in H. destruct pk, a; try discriminate H; try discriminate Nk; repeat match type of H with context[match ?c with _ => _ end] => destruct c; try discriminate H end; injection H as <- <-;
        try (exfalso; eapply NB; left; reflexivity); cbn [p_pcs] in Pi'; rewrite nth_put, Nat.eqb_refl, ?nth_wake, Ek in Pi'; right; injection Pi' as <-; reflexivity.
    + destruct (SP i N) as [E|(m & q1 & _ & _ & E & _)].
      * rewrite E in Pi'. specialize (NP i p' Pi'). congruence.
      * specialize (NP i _ E). discriminate.
  - destruct (last_call_unique e _ _ _ _ _ _ LC LC0) as (<- & <- & <-). clear LC0.
    assert (Pp : posting p = true) by (destruct C as [(_ & _ & C)|C]; [destruct p; try reflexivity; contradiction|now apply late_posting in C]).
    destruct (X i q b p LC Pi Pp) as (E1 & E2 & E3 & E4).
    destruct (Nat.eq_dec i k) as [<-|N].
    + (* the caller *) assert (pk = p) by congruence. subst pk. clear Ek.
      assert (OI : before_sleep p = true -> others_idle s' i).
      { intros B j x J Y. destruct (SP j J) as [E|(m & q1 & E & _)]; [rewrite E in Y; destruct (E1 B) as (O & _); now apply (O j x)|]. rewrite Pi in E. injection E as ->. discriminate. }
      assert (Qp : forall q', match p with PReq q1 | PReqAt q1 _ | PTid q1 | PSend q1 => q1 = q' | _ => True end -> q' = q \/ match p with PReq _ | PReqAt _ _ | PTid _ | PSend _ => False | _ => True end).
      { intros q' Z. destruct C as [(_ & _ & C)|(_ & _ & _ & C)]; destruct p; cbn [starting ppc] in C; auto; left; intuition congruence. }
      unfold pstep in H. rewrite Pi in H. destruct p; try discriminate Pp; destruct a as [| | | ok |]; try discriminate H.
      * (* PReq *) injection H as <- <-. cbn [p_pcs] in Pi'. rewrite nth_put, Nat.eqb_refl, Pi in Pi'. injection Pi' as <-. rewrite app_nil_r.
        split; [intros _; split; [now apply OI|now apply E1]|]. split; [intros _; now apply E2|]. split; discriminate.
      * injection H as <- <-. cbn [p_pcs] in Pi'. rewrite nth_put, Nat.eqb_refl, Pi in Pi'. injection Pi' as <-. rewrite app_nil_r.
        split; [intros _; split; [now apply OI|now apply E1]|]. split; [intros _; now apply E2|]. split; discriminate.
      * (* PTid *) match type of H with context[tid_of s ?z] => rename z into qz end. assert (p' = PSend qz /\ exists t, ev = [ETid i qz t]) as (-> & t & ->).
        { destruct (tid_of s qz =? 0); [cbv [next_TID] in H|]; injection H as <- <-; cbn [p_pcs] in Pi'; rewrite nth_put, Nat.eqb_refl, Pi in Pi'; injection Pi' as <-; eauto. }
        split; [intros _; split; [now apply OI|]|split; [discriminate|split; [|discriminate]]].
        -- intros j m Y. apply in_app_iff in Y. destruct Y as [Y|[Y|[]]]; [|discriminate]. eapply (proj2 (E1 eq_refl)); eauto.
        -- intros _ i' q' t' Y. apply in_app_iff in Y. destruct Y as [Y|[Y|[]]]; [|discriminate]. exfalso. eapply E2; eauto.
      * (* PSend *) destruct (Qp _ eq_refl) as [-> |[]].
        destruct ok; injection H as <- <-; cbn [p_pcs] in Pi'; rewrite nth_put, Nat.eqb_refl, Pi in Pi'; injection Pi' as <-.
        -- split; [intros _; split; [now apply OI|]|split; [discriminate|split; [|discriminate]]].
           ++ intros j m Y. apply in_app_iff in Y. destruct Y as [Y|[Y|[]]]; [|discriminate]. eapply (proj2 (E1 eq_refl)); eauto.
           ++ intros _ i' q' t' Y. apply in_app_iff in Y. destruct Y as [Y|[Y|[]]]; [eapply E3; eauto|]. injection Y as <- <- <-. reflexivity.
        -- split; [discriminate|split; [discriminate|split; [|discriminate]]].
           intros _ i' q' t' Y. apply in_app_iff in Y. destruct Y as [Y|[Y|[]]]; [eapply E3; eauto|discriminate].
      * injection H as <- <-. cbn [p_pcs] in Pi'. rewrite nth_put, Nat.eqb_refl, Pi in Pi'. injection Pi' as <-. discriminate.
      * injection H as <- <-. cbn [p_pcs] in Pi'. rewrite nth_put, Nat.eqb_refl, Pi in Pi'. injection Pi' as <-. discriminate.
      * (* PAcq *) destruct (p_lock s); [discriminate|]. injection H as <- <-. cbn [p_pcs] in Pi'. rewrite nth_put, Nat.eqb_refl, Pi in Pi'. injection Pi' as <-. rewrite app_nil_r.
        split; [intros _; split; [now apply OI|now apply E1]|]. split; [discriminate|]. split; [|discriminate]. intros _. now apply E3.
      * (* PWait *) injection H as <- <-. cbn [p_pcs] in Pi'. rewrite nth_put, Nat.eqb_refl, Pi in Pi'. injection Pi' as <-. rewrite app_nil_r.
        destruct (E1 eq_refl) as (O & NA). destruct C as [(_ & _ & [])|(_ & R & _ & _)].
        split; [discriminate|]. split; [discriminate|]. split; [intros _; now apply E3|]. intros _ _. split; [|intros j m Y; exfalso; eapply NA; eauto].
        intros K. exfalso. unfold cur, cell_of in K, R. cbn [p_cells p_last] in K. destruct (k_resp (nth (p_last s) (p_cells s) (mkcell None None))) as [m|]; [|congruence].
        destruct (R m eq_refl) as (_ & _ & j & A). eapply NA; eauto.
      * injection H as <- <-. cbn [p_pcs] in Pi'. rewrite nth_put, Nat.eqb_refl, Pi in Pi'. injection Pi' as <-. split; [discriminate|split; [discriminate|split; [|discriminate]]].
        intros _ i' q' t' Y. apply in_app_iff in Y. destruct Y as [Y|[Y|[]]]; [eapply E3; eauto|discriminate].
      * destruct (p_lock s); [discriminate|]. injection H as <- <-. cbn [p_pcs] in Pi'. rewrite nth_put, Nat.eqb_refl, Pi in Pi'. injection Pi' as <-. rewrite app_nil_r. split; [discriminate|split; [discriminate|split; [|discriminate]]]. intros _. now apply E3.
      * injection H as <- <-. cbn [p_pcs] in Pi'. rewrite nth_put, Nat.eqb_refl, Pi in Pi'. injection Pi' as <-. rewrite app_nil_r. split; [discriminate|split; [discriminate|split; [|discriminate]]]. intros _. now apply E3.
      * injection H as <- <-. cbn [p_pcs] in Pi'. rewrite nth_put, Nat.eqb_refl, Pi in Pi'. injection Pi' as <-. rewrite app_nil_r. split; [discriminate|split; [discriminate|split; [|discriminate]]]. intros _. now apply E3.
      * injection H as <- <-. cbn [p_pcs] in Pi'. rewrite nth_put, Nat.eqb_refl, Pi in Pi'. injection Pi' as <-. discriminate.
    + (* another thread *)
      assert (Bp : before_sleep p = false) by (eapply Hf; eauto).
      destruct C as [(_ & _ & C)|C]; [destruct p; cbn in Bp, C; try contradiction; discriminate|]. destruct C as (K & R & O & P).
      assert (Kp := O k pk (fun z => N (eq_sym z)) Ek).
      assert (Mm : p_msgs s' = p_msgs s /\ p_last s' = p_last s /\ (k_resp (cur s) <> None -> k_resp (cur s') <> None) /\ forall i' q' t, ~ In (ESent i' q' t) ev).
      { unfold pstep in H. rewrite Ek in H. destruct pk; cbn [rpc] in Kp; try contradiction; destruct a; try discriminate H;
        repeat match type of H with context[match ?c with _ => _ end] => destruct c; try discriminate H end; injection H as <- <-;
        try (exfalso; eapply NB; left; reflexivity);
        (split; [reflexivity|split; [reflexivity|split; [|intros ? ? ? Y; cbn in Y; intuition discriminate]]]); try (intros Y; exact Y).
        destruct Kp as (-> & _). intros _. unfold cur, cell_of. cbn [p_last p_cells]. rewrite (cell_put s) by exact LL. rewrite Nat.eqb_refl. discriminate. }
      destruct Mm as (M1 & M2 & M3 & M4). assert (Tt : tid_of s' q = tid_of s q) by (unfold tid_of; now rewrite M1).
      assert (Ep : early p = false) by (destruct p; try reflexivity; discriminate).
      assert (Sp : p' = p \/ exists q', p' = PWake q' true).
      { destruct (SP i N) as [E|(m & q1 & _ & _ & E & E')]; [left; congruence|right; exists q1; congruence]. }
      assert (B' : before_sleep p' = false /\ early p' = false) by (destruct Sp as [->|(q' & ->)]; auto). destruct B' as (B1 & B2).
      rewrite B1, B2, Tt. split; [discriminate|]. split; [discriminate|]. split.
      { intros _ i' q' t Y. apply in_app_iff in Y. destruct Y as [Y|Y]; [eapply E3; eauto|exfalso; eapply M4; eauto]. }
      intros q' ->. destruct Sp as [Sp|(q2 & Sp)]; [|discriminate]. subst p. specialize (E4 q' eq_refl). destruct E4 as (F1 & F2).
      cbn [ppc] in P. destruct P as (-> & W & _).
      assert (NN : forall m, pk <> RNotify m).
      { intros m ->. destruct (SP i N) as [E|(m1 & q1 & _ & _ & _ & E)]; [|congruence]. unfold pstep in H. rewrite Ek in H. destruct a; try discriminate H. rewrite W in H. injection H as <- <-. cbn [p_pcs] in E. rewrite nth_put in E. destruct (Nat.eqb_spec i k); [congruence|]. rewrite nth_wake, Pi, Nat.eqb_refl in E. discriminate. }
      assert (SQ : forall j, j <> k -> nth_error (p_pcs s') j = nth_error (p_pcs s) j).
      { intros j J. destruct (SP j J) as [E|(m1 & q1 & E & _)]; [exact E|]. exfalso. apply (NN m1). congruence. }
      assert (Cu : (forall m p0, pk <> RStore m p0) -> cur s' = cur s).
      { intros NS. unfold pstep in H. rewrite Ek in H. destruct pk; cbn [rpc] in Kp; try contradiction; destruct a; try discriminate H;
        repeat match type of H with context[match ?c with _ => _ end] => destruct c; try discriminate H end; injection H as <- <-; try reflexivity; try (exfalso; eapply NB; left; reflexivity). exfalso. eapply NS; reflexivity. }
      split.
      * intros Rs. destruct pk as [| | | | | | | | | | | | | | | | | | | | |m0 p0|m0|m0|m0] eqn:Kk; try (
          destruct F1 as (j & x & Ej & Nx); [rewrite <- Cu; [exact Rs|discriminate]|]; exists j, x; split; [|exact Nx]; rewrite SQ; [exact Ej|]; intros ->; rewrite Ek in Ej; injection Ej as <-; exact Nx).
        -- (* store *) exists k, (RAcq m0). split; [|exact I]. unfold pstep in H. rewrite Ek in H. destruct a; try discriminate H. injection H as <- <-. cbn [p_pcs]. rewrite nth_put, Nat.eqb_refl, Ek. reflexivity.
        -- exists k, (RNotify m0). split; [|exact I]. unfold pstep in H. rewrite Ek in H. destruct a; try discriminate H. destruct (p_lock s); [discriminate|]. injection H as <- <-. cbn [p_pcs]. rewrite nth_put, Nat.eqb_refl, Ek. reflexivity.
        -- exfalso. eapply NN; reflexivity.
      * intros j m Y Rm Tm. rewrite in_app_iff. apply in_app_iff in Y.
        destruct Y as [Y|Y].
        -- destruct (F2 j m Y Rm Tm) as [Z|[Z|(x & Ex & Hx)]]; [left; auto|right; left; left; exact Z|].
           destruct (Nat.eq_dec j k) as [->|J]; [|right; right; exists x; split; [rewrite SQ; auto|exact Hx]].
           assert (x = pk) by congruence. subst x. unfold pstep in H. rewrite Ek in H.
           destruct pk; cbn [handling] in Hx; try contradiction; subst m0; destruct a; try discriminate H; cbn [rpc] in Kp.
           ++ injection H as <- <-. right. right. eexists. cbn [p_pcs]. rewrite nth_put, Nat.eqb_refl, Ek. split; [reflexivity|]. apply is_response_iff in Rm. rewrite Rm. reflexivity.
           ++ injection H as <- <-. right. left. right. now left.
           ++ injection H as <- <-. right. right. eexists. cbn [p_pcs]. rewrite nth_put, Nat.eqb_refl, Ek. split; reflexivity.
           ++ destruct Kp as (-> & _). change (cell_of s (p_last s)) with (cur s) in H. rewrite K in H. injection H as <- <-. right. right. eexists. cbn [p_pcs]. rewrite nth_put, Nat.eqb_refl, Ek. split; reflexivity.
           ++ destruct Kp as (-> & _). change (cell_of s (p_last s)) with (cur s) in H. destruct (k_resp (cur s)) eqn:Er.
              ** left. apply M3. discriminate.
              ** injection H as <- <-. right. right. eexists. cbn [p_pcs]. rewrite nth_put, Nat.eqb_refl, Ek. split; reflexivity.
           ++ injection H as <- <-. right. right. eexists. cbn [p_pcs]. rewrite nth_put, Nat.eqb_refl, Ek. split; reflexivity.
           ++ destruct Kp as (-> & _). change (cell_of s (p_last s)) with (cur s) in H. rewrite K in H. injection H as <- <-. right. right. eexists. cbn [p_pcs]. rewrite nth_put, Nat.eqb_refl, Ek. split; reflexivity.
           ++ destruct Kp as (-> & _). rewrite (proj2 (Z.eqb_eq _ _) (eq_sym Tm)) in H. injection H as <- <-. right. right. eexists. cbn [p_pcs]. rewrite nth_put, Nat.eqb_refl, Ek. split; reflexivity.
           ++ injection H as <- <-. right. right. eexists. cbn [p_pcs]. rewrite nth_put, Nat.eqb_refl, Ek. split; reflexivity.
           ++ destruct Kp as (-> & _). injection H as <- <-. left. unfold cur, cell_of. cbn [p_last p_cells]. rewrite (cell_put s) by exact LL. rewrite Nat.eqb_refl. discriminate.
        -- right. right. unfold pstep in H. rewrite Ek in H. destruct pk; cbn [rpc] in Kp; try contradiction; destruct a; try discriminate H;
             repeat match type of H with context[match ?c with _ => _ end] => destruct c; try discriminate H end; injection H as <- <-; cbn in Y; try contradiction; destruct Y as [Y|[]]; try discriminate Y.
           injection Y as -> ->. eexists. cbn [p_pcs]. rewrite nth_put, Nat.eqb_refl, Ek. split; reflexivity.
Qed.
Lemma orderly_weaken (f g : pc -> bool) : (forall p, f p = true -> g p = true) -> forall sched s, orderly g s sched -> orderly f s sched.
Proof.
  intros FG. induction sched as [|[k a] sched IH]; intros s O; cbn [orderly] in *; [exact I|].
  destruct (pstep s k a) as [[s1 ev]|]; [|auto]. destruct O as (O1 & O2 & O3). split; [exact O1|]. split; [|auto].
  intros j p J E. specialize (O2 j p J E). specialize (FG p). destruct (f p); [|reflexivity]. rewrite FG in O2; auto.
Qed.
Lemma ext_run sched : forall s e s' evs, inv s e -> ext s e -> orderly before_sleep s sched -> prun s sched = (s', evs) -> inv s' (e ++ evs) /\ ext s' (e ++ evs).
Proof.
  induction sched as [|[k a] sched IH]; intros s e s' evs I X O H; cbn [prun orderly] in *.
  - injection H as <- <-. rewrite app_nil_r. auto.
  - destruct (pstep s k a) as [[s1 ev]|] eqn:E; [|eauto]. destruct O as (O1 & O2 & O3).
    destruct (prun s1 sched) as [s2 evs2] eqn:E2. injection H as <- <-. rewrite app_assoc.
    assert (O2' : forall j p, j <> k -> nth_error (p_pcs s) j = Some p -> early p = false) by (intros j p J Y; specialize (O2 j p J Y); destruct p; try reflexivity; discriminate).
    destruct (inv_step s e k a s1 ev I E O1 O2') as (I1 & _). eapply IH; eauto. eapply ext_step; eauto.
Qed.
Lemma L_C54_prompt_partial : forall n l sched s' evs i q b, orderly before_sleep (new_post n l) sched ->
  prun (new_post n l) sched = (s', evs) ->
  (* the caller sleeps and no other thread is in the middle of handling a message *)
  nth_error (p_pcs s') i = Some (PSleep q) -> others_idle s' i -> last_call evs i q b ->
  forall j m, In (EArrive j m) b -> response m -> In (ESent i q (m_TID m)) b -> In (ERaise j) b.
Proof.
  intros n l sched s' evs i q b O H Pi OI LC j m A R S.
  destruct (ext_run sched _ [] s' evs (inv_new n l)) as (_ & X); auto.
  { intros i0 q0 b0 p0 (a & Y & _). destruct a; discriminate. }
  destruct (X i q b _ LC Pi eq_refl) as (_ & _ & E3 & E4). destruct (E4 q eq_refl) as (F1 & F2).
  specialize (E3 eq_refl i q _ S).
  assert (NR : k_resp (cur s') = None).
  { destruct (k_resp (cur s')) eqn:K; [|reflexivity]. destruct F1 as (j0 & p0 & Ej & Np); [discriminate|]. exfalso.
    destruct (Nat.eq_dec j0 i) as [->|J]; [rewrite Pi in Ej; injection Ej as <-; exact Np|]. rewrite (OI j0 p0 J Ej) in Np. exact Np. }
  destruct (F2 j m A R E3) as [Z|[Z|(x & Ex & Hx)]]; [congruence|exact Z|]. exfalso.
  destruct (Nat.eq_dec j i) as [->|J]; [rewrite Pi in Ex; injection Ex as <-; exact Hx|]. rewrite (OI j x J Ex) in Hx. exact Hx.
Qed.
