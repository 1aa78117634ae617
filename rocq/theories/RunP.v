(** Lemmas about a node used by several threads (C89-C91). *)
From Verif Require Import PyBase BytesM EsvM MsgM PropM ObjM DbM TidM SpecWire SpecObj SpecReq NodeM LocalM SpecNode SpecProf ServeM SpecServe RunM SpecRun DictP ObjP ReqP TidP ServeP BytesP MapP ProfP AnswerP.
Require Import ZifyBool Permutation.
Local Open Scope nat_scope.

Section P.
Context {PS : PySet}.
Lemma rrun_snoc s a i : rrun s (a ++ [i]) = rstep (rrun s a) i.
Proof. unfold rrun. now rewrite fold_left_app. Qed.
Lemma rrun_app s a b : rrun s (a ++ b) = rrun (rrun s a) b.
Proof. apply fold_left_app. Qed.
Lemma vrun_snoc s a i : vrun s (a ++ [i]) = vstep (vrun s a) i.
Proof. unfold vrun. now rewrite fold_left_app. Qed.
Lemma rstep_at s i t h tab t' : nth_error (r_thr s) i = Some t -> estep (r_heap s) (r_tab s) (r_prof s) t = (h, tab, t') ->
  rstep s i = mkrst h tab (r_prof s) (put (r_thr s) i t').
Proof. intros E F. unfold rstep. now rewrite E, F. Qed.
Lemma rstep_none s i : nth_error (r_thr s) i = None -> rstep s i = s.
Proof. intros E. unfold rstep. now rewrite E. Qed.
Lemma at_ref_some h i o : nth_error h i = Some o -> at_ref h i = o.
Proof. intros E. unfold at_ref. now apply nth_error_nth. Qed.
Lemma key_of req : o_code (new_object (PInt (m_DEOJ req))) = m_DEOJ req.
Proof. reflexivity. Qed.
Lemma filter_snoc {A} (f : A -> bool) l x : filter f (l ++ [x]) = filter f l ++ if f x then [x] else [].
Proof. rewrite filter_app. reflexivity. Qed.
Lemma in_snoc {A} (x y : A) l : In x (l ++ [y]) <-> In x l \/ y = x.
Proof. rewrite in_app_iff. cbn. tauto. Qed.

(** ** C89 *)
(** What a thread is, seen from the node. *)
Definition facing (tab : list (Z * nat)) (reqs : list msg) (h : list obj) (sched : list nat) (t : nat) : option thr :=
  match nth_error reqs t with
  | None => None
  | Some m =>
    if in_dec Nat.eq_dec t sched then
      match zget (m_DEOJ m) tab with
      | None => Some TNone
      | Some i => option_map (TServe i) (nth_error (v_pcs (vrun (serving (at_ref h i) reqs) (filter (goes_to tab reqs i) sched))) t)
      end
    else Some (TReq m)
  end.
Lemma vpcs_nth o reqs sched t : nth_error (v_pcs (vrun (serving o reqs) sched)) t = None <-> nth_error reqs t = None.
Proof.
  rewrite !nth_error_None. assert (L : length (v_pcs (vrun (serving o reqs) sched)) = length reqs); [|lia].
  induction sched as [|i sched IH] using rev_ind; [cbn; apply map_length|]. rewrite vrun_snoc. unfold vstep.
  destruct (nth_error _ i); [|exact IH]. destruct (pstep _ _). cbn [v_pcs]. now rewrite length_put.
Qed.
Lemma not_yet o reqs f sched t m : nth_error reqs t = Some m -> ~ In t sched ->
  nth_error (v_pcs (vrun (serving o reqs) (filter f sched))) t = Some (SBegin m).
Proof.
  intros R. induction sched as [|i sched IH] using rev_ind; intros N; [cbn; now rewrite nth_error_map, R|].
  rewrite in_snoc in N. rewrite filter_snoc, vrun_app. destruct (f i); [|apply IH; tauto]. cbn [vrun fold_left]. unfold vstep.
  destruct (nth_error _ i); [|apply IH; tauto]. destruct (pstep _ _). cbn [v_pcs]. rewrite nth_put. destruct (Nat.eqb_spec t i); [subst; tauto|]. apply IH. tauto.
Qed.
Lemma other_step o reqs f sched t j : t <> j -> nth_error (v_pcs (vrun (serving o reqs) (filter f (sched ++ [j])))) t = nth_error (v_pcs (vrun (serving o reqs) (filter f sched))) t.
Proof.
  intros N. rewrite filter_snoc, vrun_app. destruct (f j); [|reflexivity]. cbn [vrun fold_left]. unfold vstep.
  fold (vrun (serving o reqs) (filter f sched)).
  destruct (nth_error (v_pcs (vrun (serving o reqs) (filter f sched))) j); [|reflexivity]. destruct (pstep _ _). cbn [v_pcs]. rewrite nth_put. destruct (Nat.eqb_spec t j); [congruence|reflexivity].
Qed.

Lemma at_put h i o j : i < length h -> at_ref (put h i o) j = if Nat.eqb j i then o else at_ref h j.
Proof.
  intros L. unfold at_ref. destruct (Nat.eqb_spec j i) as [->|N].
  - apply nth_error_nth. rewrite nth_put, Nat.eqb_refl. destruct (nth_error h i) eqn:E; [reflexivity|]. apply nth_error_None in E. lia.
  - destruct (nth_error h j) as [x|] eqn:E.
    + rewrite (nth_error_nth _ _ _ E). apply nth_error_nth. rewrite nth_put. destruct (Nat.eqb_spec j i); [congruence|exact E].
    + rewrite !nth_overflow; [reflexivity| |]; rewrite ?length_put; now apply nth_error_None in E.
Qed.
(** One step of a thread that is in a request. *)
Lemma estep_asking h tab prof t m i p : zget (m_DEOJ m) tab = Some i -> (t = TReq m /\ p = SBegin m) \/ t = TServe i p ->
  estep h tab prof t = (put h i (fst (pstep (at_ref h i) p)), tab, TServe i (snd (pstep (at_ref h i) p))).
Proof. intros G [(-> & ->)| ->]; cbn [estep]; [rewrite key_of, G|]; destruct (pstep _ _); reflexivity. Qed.
Lemma vstep_other s i : nth_error (v_pcs s) i = None -> vstep s i = s.
Proof. intros E. unfold vstep. now rewrite E. Qed.
Lemma apart h tab prof reqs sched : table_ok h tab -> let s := rrun (asking h tab prof reqs) sched in
  r_tab s = tab /\ r_prof s = prof /\ length (r_heap s) = length h /\
  (forall i, i < length h -> at_ref (r_heap s) i = v_obj (vrun (serving (at_ref h i) reqs) (filter (goes_to tab reqs i) sched))) /\
  (forall t, nth_error (r_thr s) t = facing tab reqs h sched t).
Proof.
  intros OK. cbn zeta.
  induction sched as [|j sched (IT & IF & IL & IH & IP)] using rev_ind.
  - repeat split. intros t. unfold facing. cbn [rrun fold_left asking r_thr]. rewrite nth_error_map. destruct (nth_error reqs t); reflexivity.
  - rewrite rrun_snoc. set (s := rrun (asking h tab prof reqs) sched) in *. pose proof (IP j) as J. unfold facing in J.
    destruct (nth_error reqs j) as [m|] eqn:R.
    2:{ rewrite (rstep_none _ _ J). repeat split; auto.
        - intros i L. rewrite filter_snoc. unfold goes_to at 2. rewrite R, app_nil_r. auto.
        - intros t. rewrite IP. unfold facing. destruct (nth_error reqs t) eqn:T; [|reflexivity]. assert (t <> j) by congruence.
          destruct (in_dec Nat.eq_dec t sched) as [I|I]; destruct (in_dec Nat.eq_dec t (sched ++ [j])) as [I'|I']; rewrite in_snoc in I'; try tauto; [|destruct I'; [tauto|congruence]].
          destruct (zget _ tab); [|reflexivity]. now rewrite other_step. }
    destruct (zget (m_DEOJ m) tab) as [i|] eqn:G.
    + set (V := vrun (serving (at_ref h i) reqs) (filter (goes_to tab reqs i) sched)) in *.
      assert (exists p, nth_error (v_pcs V) j = Some p /\ exists t, nth_error (r_thr s) j = Some t /\ ((t = TReq m /\ p = SBegin m) \/ t = TServe i p)) as (p & Q & t & T & C).
      { destruct (in_dec Nat.eq_dec j sched) as [I|I].
        - destruct (nth_error (v_pcs V) j) as [p|] eqn:Q; [|apply vpcs_nth in Q; congruence]. exists p. split; [reflexivity|]. eexists. split; [exact J|]. now right.
        - exists (SBegin m). split; [now apply not_yet|]. eexists. split; [exact J|]. now left. }
      pose proof (OK _ _ G) as Li.
      pose proof (rstep_at s j t _ _ _ T (estep_asking (r_heap s) (r_tab s) (r_prof s) t m i p (eq_trans (f_equal (zget (m_DEOJ m)) IT) G) C)) as E. rewrite E. clear E. cbn [r_tab r_prof r_heap r_thr].
      pose proof (IH i Li) as Hi. rewrite Hi. destruct (vstep_at V j p Q) as (A & B).
      assert (F : filter (goes_to tab reqs i) (sched ++ [j]) = filter (goes_to tab reqs i) sched ++ [j]).
      { rewrite filter_snoc. unfold goes_to at 2. now rewrite R, G, Nat.eqb_refl. }
      repeat split; [exact IT|exact IF|now rewrite length_put| |].
      * intros k Lk. rewrite at_put by lia. destruct (Nat.eqb_spec k i) as [->|N].
        -- rewrite F, vrun_snoc. symmetry. exact A.
        -- rewrite filter_snoc. unfold goes_to at 2. rewrite R, G. destruct (Nat.eqb_spec i k); [congruence|]. rewrite app_nil_r. auto.
      * intros u. rewrite nth_put. destruct (Nat.eqb_spec u j) as [->|N].
        -- rewrite T. unfold facing. rewrite R, G. destruct (in_dec Nat.eq_dec j (sched ++ [j])) as [I|I]; [|destruct I; apply in_snoc; auto].
           rewrite F, vrun_snoc. fold V. rewrite B, nth_put, Nat.eqb_refl, Q. reflexivity.
        -- rewrite IP. unfold facing. destruct (nth_error reqs u) eqn:U; [|reflexivity].
           destruct (in_dec Nat.eq_dec u sched) as [I|I]; destruct (in_dec Nat.eq_dec u (sched ++ [j])) as [I'|I']; rewrite in_snoc in I'; try tauto; [|destruct I'; [tauto|congruence]].
           destruct (zget (m_DEOJ m0) tab); [|reflexivity]. now rewrite other_step.
    + assert (exists t, nth_error (r_thr s) j = Some t /\ (t = TReq m \/ t = TNone)) as (t & T & C).
      { destruct (in_dec Nat.eq_dec j sched); eexists; split; eauto. }
      assert (E : estep (r_heap s) (r_tab s) (r_prof s) t = (r_heap s, r_tab s, TNone)) by (rewrite IT; destruct C as [-> | ->]; cbn [estep]; [rewrite key_of, G|]; reflexivity).
      rewrite (rstep_at s j t _ _ _ T E). cbn [r_tab r_prof r_heap r_thr].
      repeat split; [exact IT|exact IF|exact IL| |].
      * intros k Lk. rewrite filter_snoc. unfold goes_to at 2. rewrite R, G, app_nil_r. auto.
      * intros u. rewrite nth_put. destruct (Nat.eqb_spec u j) as [->|N].
        -- rewrite T. unfold facing. rewrite R, G. destruct (in_dec Nat.eq_dec j (sched ++ [j])) as [I|I]; [reflexivity|destruct I; apply in_snoc; auto].
        -- rewrite IP. unfold facing. destruct (nth_error reqs u) eqn:U; [|reflexivity].
           destruct (in_dec Nat.eq_dec u sched) as [I|I]; destruct (in_dec Nat.eq_dec u (sched ++ [j])) as [I'|I']; rewrite in_snoc in I'; try tauto; [|destruct I'; [tauto|congruence]].
           destruct (zget (m_DEOJ m0) tab); [|reflexivity]. now rewrite other_step.
Qed.
End P.
Lemma L_C89_object : forall (PS : PySet) h tab prof reqs sched i o, table_ok h tab -> nth_error h i = Some o ->
  nth_error (r_heap (rrun (asking h tab prof reqs) sched)) i = Some (v_obj (vrun (serving o reqs) (filter (goes_to tab reqs i) sched))).
Proof.
  intros PS h tab prof reqs sched i o OK E. destruct (apart h tab prof reqs sched OK) as (_ & _ & L & H & _).
  assert (I : i < length h) by (apply nth_error_Some; congruence). pose proof (H i I) as G. rewrite (at_ref_some _ _ _ E) in G. rewrite <- G.
  unfold at_ref. apply nth_error_nth'. lia.
Qed.
Lemma L_C89_thread : forall (PS : PySet) h tab prof reqs sched t m i o, table_ok h tab -> nth_error reqs t = Some m ->
  zget (m_DEOJ m) tab = Some i -> nth_error h i = Some o -> In t sched ->
  exists p, nth_error (v_pcs (vrun (serving o reqs) (filter (goes_to tab reqs i) sched))) t = Some p /\
    nth_error (r_thr (rrun (asking h tab prof reqs) sched)) t = Some (TServe i p).
Proof.
  intros PS h tab prof reqs sched t m i o OK R G E I. destruct (apart h tab prof reqs sched OK) as (_ & _ & _ & _ & H). rewrite H. unfold facing. rewrite R, G.
  destruct (in_dec Nat.eq_dec t sched); [|tauto]. rewrite (at_ref_some _ _ _ E). destruct (nth_error (v_pcs _) t) as [p|] eqn:Q; [exists p; auto|apply vpcs_nth in Q; congruence].
Qed.
Lemma L_C89_unknown : forall (PS : PySet) h tab prof reqs sched t m, table_ok h tab -> nth_error reqs t = Some m -> zget (m_DEOJ m) tab = None -> In t sched ->
  nth_error (r_thr (rrun (asking h tab prof reqs) sched)) t = Some TNone.
Proof.
  intros PS h tab prof reqs sched t m OK R G I. destruct (apart h tab prof reqs sched OK) as (_ & _ & _ & _ & H). rewrite H. unfold facing. rewrite R, G.
  destruct (in_dec Nat.eq_dec t sched); [reflexivity|tauto].
Qed.
Lemma steps_filter f t sched : f t = true -> steps_of t (filter f sched) = steps_of t sched.
Proof.
  intros F. unfold steps_of. induction sched as [|j sched IH]; [reflexivity|]. cbn [filter count_occ].
  destruct (f j) eqn:J; cbn [count_occ]; destruct (Nat.eq_dec j t); [now rewrite IH|exact IH|congruence|exact IH].
Qed.
Lemma goes_to_true tab reqs i t m : nth_error reqs t = Some m -> zget (m_DEOJ m) tab = Some i -> goes_to tab reqs i t = true.
Proof. intros R G. unfold goes_to. now rewrite R, G, Nat.eqb_refl. Qed.
Lemma L_C89_ends : forall (PS : PySet) h tab prof reqs sched t m, table_ok h tab -> nth_error reqs t = Some m ->
  3 + length (m_props m) + length (m_sets m) + length (m_gets m) <= steps_of t sched ->
  match zget (m_DEOJ m) tab with
  | None => nth_error (r_thr (rrun (asking h tab prof reqs) sched)) t = Some TNone
  | Some i => exists r, nth_error (r_thr (rrun (asking h tab prof reqs) sched)) t = Some (TServe i (SDone r))
  end.
Proof.
  intros PS h tab prof reqs sched t m OK R L. assert (I : In t sched) by (apply (count_occ_In Nat.eq_dec); unfold steps_of in L; lia).
  destruct (zget (m_DEOJ m) tab) as [i|] eqn:G; [|now apply (L_C89_unknown PS h tab prof reqs sched t m)].
  destruct (nth_error h i) as [o|] eqn:E; [|apply nth_error_None in E; pose proof (OK _ _ G); lia].
  destruct (L_C89_thread PS h tab prof reqs sched t m i o OK R G E I) as (p & Q & T).
  destruct (L_C78_ends o reqs (filter (goes_to tab reqs i) sched) t m R) as (r & D).
  - rewrite steps_filter by now apply (goes_to_true tab reqs i t m). exact L.
  - exists r. rewrite T. congruence.
Qed.
Lemma only_one (f : nat -> bool) t sched : (forall u, In u sched -> f u = true -> u = t) -> exists n, filter f sched = repeat t n.
Proof.
  intros H. induction sched as [|j sched IH]; [exists 0; reflexivity|]. destruct IH as (n & IH); [intros u U; apply H; now right|].
  cbn [filter]. destruct (f j) eqn:J; [|now exists n]. exists (S n). rewrite IH. cbn [repeat]. f_equal. apply H; [now left|exact J].
Qed.
Lemma done_stays s i r : nth_error (v_pcs s) i = Some (SDone r) -> forall n, v_obj (vrun s (repeat i n)) = v_obj s /\ nth_error (v_pcs (vrun s (repeat i n))) i = Some (SDone r).
Proof.
  intros E n. revert s E. induction n as [|n IH]; intros s E; [auto|]. cbn [repeat vrun fold_left]. fold (vrun (vstep s i) (repeat i n)).
  destruct (vstep_at s i _ E) as (A & B). destruct (IH (vstep s i)) as (C & D); [rewrite B, nth_put, Nat.eqb_refl, E; reflexivity|]. split; [now rewrite C, A|exact D].
Qed.
Lemma done_when s i n k r r' : nth_error (v_pcs (vrun s (repeat i n))) i = Some (SDone r) -> nth_error (v_pcs (vrun s (repeat i k))) i = Some (SDone r') ->
  r = r' /\ v_obj (vrun s (repeat i n)) = v_obj (vrun s (repeat i k)).
Proof.
  intros A B. assert (W : forall a b x, a <= b -> nth_error (v_pcs (vrun s (repeat i a))) i = Some (SDone x) ->
    v_obj (vrun s (repeat i b)) = v_obj (vrun s (repeat i a)) /\ nth_error (v_pcs (vrun s (repeat i b))) i = Some (SDone x)).
  { intros a b x L E. replace b with (a + (b - a)) by lia. rewrite repeat_app, vrun_app. now apply done_stays. }
  destruct (Nat.le_ge_cases n k) as [L|L].
  - destruct (W n k r L A) as (C & D). split; [congruence|now symmetry].
  - destruct (W k n r' L B) as (C & D). split; [congruence|exact C].
Qed.
Lemma L_C89_alone : forall (PS : PySet) h tab prof reqs sched t m i o r, table_ok h tab -> nth_error reqs t = Some m ->
  zget (m_DEOJ m) tab = Some i -> nth_error h i = Some o ->
  (forall u m', nth_error reqs u = Some m' -> u <> t -> zget (m_DEOJ m') tab <> Some i) ->
  nth_error (r_thr (rrun (asking h tab prof reqs) sched)) t = Some (TServe i (SDone r)) ->
  r = snd (obj_message_received o m) /\
  nth_error (r_heap (rrun (asking h tab prof reqs) sched)) i = Some (fst (fst (obj_message_received o m))).
Proof.
  intros PS h tab prof reqs sched t m i o r OK R G E O T.
  rewrite (L_C89_object PS h tab prof reqs sched i o OK E).
  assert (I : In t sched).
  { destruct (apart h tab prof reqs sched OK) as (_ & _ & _ & _ & H). rewrite H in T. unfold facing in T. rewrite R in T. destruct (in_dec Nat.eq_dec t sched); [assumption|discriminate]. }
  destruct (L_C89_thread PS h tab prof reqs sched t m i o OK R G E I) as (p & Q & T').
  assert (p = SDone r) by congruence. subst p.
  destruct (only_one (goes_to tab reqs i) t sched) as (n & N).
  { intros u _. unfold goes_to. destruct (nth_error reqs u) as [m'|] eqn:U; [|discriminate]. destruct (zget (m_DEOJ m') tab) as [j|] eqn:J; [|discriminate].
    intros X. apply Nat.eqb_eq in X. subst j. destruct (Nat.eq_dec u t); [assumption|]. destruct (O u m' U n J). }
  rewrite N in *. destruct (L_C78_sequential (serving o reqs) t m) as (k & A & B); [cbn; rewrite nth_error_map, R; reflexivity|].
  destruct (done_when _ _ _ _ _ _ Q B) as (C & D). split; [exact C|]. rewrite D, A. reflexivity.
Qed.

(** ** Steps of requests and the node profile *)
Lemma pstep_code o p : o_code (fst (pstep o p)) = o_code o.
Proof.
  destruct p as [r|r todo sets n|r todo sets gets n|r todo ps n|r]; cbn [pstep]; [|destruct todo as [|mp todo]|destruct todo as [|mp todo]|destruct todo as [|mp todo]|]; try reflexivity.
  - destruct (negb _); [reflexivity|]. destruct (o_handler o); reflexivity.
  - destruct (do_write o mp) as [o1 [[rp acc]|e]] eqn:E; exact (proj1 (do_write_keeps _ _ _ _ E)).
  - destruct (do_read_wr o mp) as [o1 [[rp acc]|e]] eqn:E; exact (proj1 (do_read_wr_keeps _ _ _ _ E)).
  - destruct (do_plain _ o mp) as [o1 [[rp acc]|e]] eqn:E; exact (proj1 (do_plain_keeps _ _ _ _ _ E)).
Qed.
Definition same_five (o o' : obj) : Prop := forall c, In c five -> get_property_data c o' = get_property_data c o.
Lemma five_codes c : In c five -> In c np_codes.
Proof. cbn. tauto. Qed.
Lemma data_of_get c o : get_property_data c o = option_map op_data (get_property c o).
Proof. unfold get_property_data. change (zget c (o_props o)) with (get_property c o). destruct (get_property c o); reflexivity. Qed.
Lemma do_write_prof o mp : profile_ok o -> profile_ok (fst (do_write o mp)) /\ same_five o (fst (do_write o mp)).
Proof.
  intros P. assert (B : builtin (o_handler o)) by (left; apply P). pose proof (profile_wf o P) as W.
  rewrite (do_write_builtin o mp B W). cbn [fst]. unfold apply_write, write_answer.
  destruct (get_property (p_code mp) o) as [q|] eqn:G; [|split; [exact P|intros c _; reflexivity]].
  destruct P as (T & R & M & C & H) eqn:PP. rewrite H. unfold may_write. destruct (can_write q) eqn:Q; cbn [snd]; [|split; [exact P|intros c _; reflexivity]].
  split; [now apply profile_ok_data|]. intros c F. unfold store. rewrite get_data_set.
  destruct (Z.eqb_spec (p_code mp) c) as [E|E]; [|destruct (get_property_data c o); reflexivity].
  exfalso. rewrite E in G. pose proof (profile_not_writable o c q P (five_codes c F) G) as X. unfold can_write in Q. rewrite X in Q. discriminate.
Qed.
Lemma pstep_prof o p : profile_ok o -> profile_ok (fst (pstep o p)) /\ same_five o (fst (pstep o p)).
Proof.
  intros P. assert (B : builtin (o_handler o)) by (left; apply P). pose proof (profile_wf o P) as W.
  assert (Z0 : profile_ok o /\ same_five o o) by (split; [exact P|intros c _; reflexivity]).
  destruct p as [r|r todo sets n|r todo sets gets n|r todo ps n|r]; cbn [pstep]; [|destruct todo as [|mp todo]|destruct todo as [|mp todo]|destruct todo as [|mp todo]|]; try exact Z0.
  - destruct (negb _); [exact Z0|]. destruct (o_handler o); exact Z0.
  - pose proof (do_write_prof o mp P) as X. destruct (do_write o mp) as [o1 [[rp acc]|e]]; exact X.
  - rewrite (do_read_wr_builtin o mp B W). destruct (has_property _ _); exact Z0.
  - unfold do_plain. destruct (is_read_request _); [rewrite (do_read_builtin o mp B W); exact Z0|].
    destruct (is_write_request _); [|exact Z0]. pose proof (do_write_prof o mp P) as X. destruct (do_write o mp) as [o1 [[rp acc]|e]]; exact X.
Qed.

(** ** The stores of an update *)
Definition shown (codes : list Z) (p : obj) : Prop := forall c, In c five -> get_property_data c p = Some (says c codes).
Lemma shows_shown codes p : shows codes p <-> shown codes p.
Proof.
  unfold shows, shown, five. split.
  - intros (A & B & C & D & E) c [<-|[<-|[<-|[<-|[<-|[]]]]]]; assumption.
  - intros H. repeat split; apply H; cbn; tauto.
Qed.
Definition puts_fine (codes : list Z) (puts : list (Z * res (list Z))) : Prop :=
  NoDup (map fst puts) /\ forall c d, In (c, d) puts -> In c np_codes /\ exists x, d = Ok x /\ (In c five -> x = says c codes).
Section Puts.
Context {PS : PySet}.
Lemma map_bytes_ok l : bytes_ok l -> (length l <= 255)%nat -> map_bytes l = Ok (map_data l).
Proof.
  intros Hb Hl. unfold map_bytes.
  assert (B1 : bytes_ok (zlen l :: l)) by (apply Forall_cons; [unfold byte_ok, zlen; lia|assumption]).
  rewrite (bytes_of_ok _ B1). unfold map_data. destruct (is_format1 (zlen l)); [reflexivity|].
  assert (B2 : bytes_ok (Z.of_nat PROPERTYMAP_FORMAT2_MAP_SIZE :: map2_encode l)).
  { apply Forall_cons; [unfold byte_ok, PROPERTYMAP_FORMAT2_MAP_SIZE; lia|apply map2_encode_byte]. }
  rewrite (bytes_of_ok _ B2). reflexivity.
Qed.
Lemma np_puts_fine codes p : profile_ok p -> puts_fine codes (np_puts codes p) /\ forall c, In c five -> In c (map fst (np_puts codes p)).
Proof.
  intros (T & R & M & C & H). unfold np_puts. rewrite instance_loop, class_loop.
  fold (map_of is_announce_required p) (map_of is_read_enabled p) (map_of is_write_enabled p).
  destruct (map_of_ok _ p _ attr_only_anno T R) as (A1 & A2 & _).
  destruct (map_of_ok _ p _ attr_only_get T R) as (B1 & B2 & _).
  destruct (map_of_ok _ p _ attr_only_set T R) as (C1 & C2 & _).
  rewrite !map_bytes_ok by (try assumption; lia). rewrite !from_int_n_be.
  unfold ANNO_PROPERTY_MAP, GET_PROPERTY_MAP, SET_PROPERTY_MAP. split; [|cbn; tauto]. split.
  - cbn [map fst]. repeat (constructor; [cbn [In]; lia|]). constructor.
  - intros c d I. cbn [In] in I.
    repeat (destruct I as [I|I]; [inversion I; subst; split; [cbn; tauto|eexists; split; [reflexivity|intros F; first [reflexivity|exfalso; cbn [In five] in F; lia]]]|]). destruct I.
Qed.
End Puts.

(** ** One thread of the user *)
Section One.
Context {PS : PySet}.
Variables (h0 : list obj) (tab0 : list (Z * nat)) (calls : list ucall).
Definition add1 (tab : list (Z * nat)) (c : ucall) : list (Z * nat) :=
  match c with CAdd i => zset (o_code (at_ref h0 i)) i tab | CSet _ _ _ => tab end.
Definition tabk (b : nat) : list (Z * nat) := fold_left add1 (firstn b calls) tab0.
Definition codesk (b : nat) : list Z := dkeys (tabk b).
Hypothesis keyed0 : forall c i, In (c, i) tab0 -> o_code (at_ref h0 i) = c.
Hypothesis all_legal : Forall (legal h0) calls.

Lemma tabk_S b c : nth_error calls b = Some c -> tabk (S b) = add1 (tabk b) c.
Proof. intros E. unfold tabk. rewrite (firstn_S _ _ _ E), fold_left_app. reflexivity. Qed.
Lemma tabk_keyed b c i : In (c, i) (tabk b) -> o_code (at_ref h0 i) = c.
Proof.
  unfold tabk. revert c i. generalize (firstn b calls). intros l. induction l as [|x l IH] using rev_ind; intros c i; [apply keyed0|].
  rewrite fold_left_app. cbn [fold_left]. destruct x as [j|j k d]; cbn [add1]; [|apply IH].
  intros H. apply (in_dset Z.eqb) in H. destruct H as [H|[H|(a & Ha & H)]]; [congruence|now apply IH|]. inversion H; subst. apply Z.eqb_eq in Ha. congruence.
Qed.
Lemma tabk_other b c d k i : nth_error calls b = Some c -> c = CSet i k d -> tabk (S b) = tabk b.
Proof. intros E ->. now rewrite (tabk_S _ _ E). Qed.

(** The state of thread 0; [b] calls have begun. *)
Definition user_ok (tab : list (Z * nat)) (p : obj) (b : nat) (pc : upc) (outs : list ures) : Prop :=
  match pc with
  | UNext => length outs = b /\ shown (codesk b) p
  | UIter => S (length outs) = b /\ shown (codesk (length outs)) p
  | URound used pos objs => S (length outs) = b /\ shown (codesk (length outs)) p /\ used = length tab /\ (pos <= used)%nat /\ objs = map snd (firstn pos tab)
  | UPuts puts => S (length outs) = b /\ puts_fine (codesk b) puts /\
      forall c, In c five -> get_property_data c p = Some (says c (codesk (if existsb (Z.eqb c) (map fst puts) then length outs else b)))
  end.
Definition outs_ok (outs : list ures) : Prop :=
  forall j r, nth_error outs j = Some r -> match nth_error calls j with
    | Some (CAdd _) => r = UBool true
    | Some (CSet i c _) => exists x, r = UBool x
    | None => False end.
Definition here (s : rst) : Prop :=
  r_prof s = 0 /\ map o_code (r_heap s) = map o_code h0 /\ profile_ok (at_ref (r_heap s) 0) /\ 0 < length h0 /\
  (forall t todo pc outs, nth_error (r_thr s) (S t) <> Some (TUser todo pc outs)) /\
  exists pc outs b, nth_error (r_thr s) 0 = Some (TUser (skipn b calls) pc outs) /\ b <= length calls /\ r_tab s = tabk b /\
    user_ok (tabk b) (at_ref (r_heap s) 0) b pc outs /\ outs_ok outs /\
    (pc <> UNext -> exists i, nth_error calls (length outs) = Some (CAdd i)).

Lemma codes_len h : map o_code h = map o_code h0 -> length h = length h0.
Proof. intros E. apply (f_equal (@length Z)) in E. now rewrite !map_length in E. Qed.
Lemma code_at h i : map o_code h = map o_code h0 -> o_code (at_ref h i) = o_code (at_ref h0 i).
Proof. intros E. unfold at_ref. rewrite <- (map_nth o_code h nobody i), <- (map_nth o_code h0 nobody i), E. reflexivity. Qed.
Lemma put_codes h i o : map o_code h = map o_code h0 -> o_code o = o_code (at_ref h i) -> map o_code (put h i o) = map o_code h0.
Proof.
  intros E C. rewrite <- E. clear E. revert i C. induction h as [|x h IH]; intros [|i] C; cbn [put map]; try reflexivity.
  - cbn in C. now rewrite C.
  - f_equal. apply IH. exact C.
Qed.
Lemma data_code c d o : o_code (fst (set_property_data c d o)) = o_code o.
Proof. exact (proj1 (store_keeps c d o)). Qed.
Lemma user_data tab b pc outs p p' : same_five p p' -> user_ok tab p b pc outs -> user_ok tab p' b pc outs.
Proof.
  intros E. unfold user_ok, shown. destruct pc; intros H.
  - destruct H as (A & B). split; [exact A|]. intros c F. rewrite E; auto.
  - destruct H as (A & B). split; [exact A|]. intros c F. rewrite E; auto.
  - destruct H as (A & B & C). split; [exact A|]. split; [|exact C]. intros c F. rewrite E; auto.
  - destruct H as (A & B & C). split; [exact A|]. split; [exact B|]. intros c F. rewrite E; auto.
Qed.
Lemma skipn_nth {A} (l : list A) b x r : skipn b l = x :: r -> nth_error l b = Some x /\ skipn (S b) l = r /\ S b <= length l.
Proof.
  revert b. induction l as [|y l IH]; intros [|b] E; cbn in E; try discriminate.
  - inversion E; subst. cbn. repeat split. lia.
  - destruct (IH b E) as (H1 & H2 & H3). cbn [nth_error length]. split; [exact H1|]. split; [exact H2|lia].
Qed.
Lemma outs_snoc_ok outs r : outs_ok outs -> match nth_error calls (length outs) with
    | Some (CAdd _) => r = UBool true | Some (CSet i c _) => exists x, r = UBool x | None => False end -> outs_ok (outs ++ [r]).
Proof.
  intros O H j x E. destruct (Nat.lt_ge_cases j (length outs)) as [L|L].
  - rewrite nth_error_app1 in E by exact L. exact (O j x E).
  - rewrite nth_error_app2 in E by exact L. destruct (j - length outs) as [|k] eqn:D; [|destruct k; discriminate].
    cbn in E. assert (x = r) by congruence. subst x. replace j with (length outs) by lia. exact H.
Qed.
Lemma nth_pos {A} (l : list A) n x : nth_error l n = Some x -> n < length l.
Proof. intros E. apply nth_error_Some. congruence. Qed.
Lemma round_codes h b objs : map o_code h = map o_code h0 -> objs = map snd (tabk b) -> map (fun i => o_code (at_ref h i)) objs = codesk b.
Proof.
  intros E ->. unfold codesk, dkeys. rewrite map_map. apply map_ext_in. intros [c i] I. cbn [fst snd]. rewrite (code_at h i E). now apply (tabk_keyed b).
Qed.

Lemma here_step s i : here s -> here (rstep s i).
Proof.
  intros (HP & HC & PO & PL & NU & pc & outs & b & E & BL & HT & U & OO & BU).
  pose proof (codes_len _ HC) as LEN.
  destruct (nth_error (r_thr s) i) as [t|] eqn:T; [|rewrite (rstep_none _ _ T); unfold here; eauto 20].
  destruct i as [|i].
  - (* the user *)
    assert (t = TUser (skipn b calls) pc outs) by congruence. subst t. clear T.
    assert (G : forall h tab b' pc' outs', estep (r_heap s) (r_tab s) (r_prof s) (TUser (skipn b calls) pc outs) = (h, tab, TUser (skipn b' calls) pc' outs') ->
      map o_code h = map o_code h0 -> profile_ok (at_ref h 0) -> b' <= length calls -> tab = tabk b' -> user_ok (tabk b') (at_ref h 0) b' pc' outs' -> outs_ok outs' ->
      (pc' <> UNext -> exists i, nth_error calls (length outs') = Some (CAdd i)) -> here (rstep s 0)).
    { intros h tab b' pc' outs' X1 X2 X3 X4 X5 X6 X7 X8. rewrite (rstep_at _ _ _ _ _ _ E X1). unfold here. cbn [r_prof r_heap r_tab r_thr].
      split; [exact HP|]. split; [exact X2|]. split; [exact X3|]. split; [exact PL|]. split; [intros t todo pc1 outs1; rewrite nth_put; cbn [Nat.eqb]; apply NU|].
      exists pc', outs', b'. split; [rewrite nth_put, Nat.eqb_refl, E; reflexivity|]. auto 10. }
    destruct pc as [| |used pos objs|puts].
    + destruct U as (U1 & U2). destruct (skipn b calls) as [|[j|j c d] todo] eqn:K.
      * apply (G (r_heap s) (r_tab s) b UNext outs); auto; [rewrite K; reflexivity|split; auto].
      * destruct (skipn_nth _ _ _ _ K) as (K1 & K2 & K3). cbn [estep] in G.
        apply (G (r_heap s) (zset (o_code (at_ref (r_heap s) j)) j (r_tab s)) (S b) UIter outs); auto.
        -- now rewrite K2.
        -- rewrite (tabk_S _ _ K1), HT. cbn [add1]. now rewrite (code_at _ j HC).
        -- split; [lia|]. now rewrite U1.
        -- intros _. exists j. now rewrite U1.
      * destruct (skipn_nth _ _ _ _ K) as (K1 & K2 & K3). cbn [estep] in G.
        assert (LG : legal h0 (CSet j c d)) by (rewrite Forall_forall in all_legal; apply all_legal; now apply nth_error_In in K1). destruct LG as (LJ & LF).
        destruct (set_property_data c d (at_ref (r_heap s) j)) as [o r] eqn:D.
        assert (EO : o = fst (set_property_data c d (at_ref (r_heap s) j))) by now rewrite D.
        assert (PK : profile_ok (at_ref (put (r_heap s) j o) 0) /\ same_five (at_ref (r_heap s) 0) (at_ref (put (r_heap s) j o) 0)).
        { rewrite at_put by lia. destruct (Nat.eqb_spec 0 j) as [J|J]; [|split; [exact PO|intros x _; reflexivity]]. subst j. rewrite EO. split; [now apply profile_ok_data|].
          intros x F. rewrite get_data_set. destruct (Z.eqb_spec c x) as [->|]; [destruct LF; auto|]. destruct (get_property_data x _); reflexivity. }
        destruct PK as (P1 & P2).
        apply (G (put (r_heap s) j o) (r_tab s) (S b) UNext (outs ++ [UBool r])); auto.
        -- now rewrite K2.
        -- apply put_codes; [exact HC|]. rewrite EO. apply data_code.
        -- rewrite HT. symmetry. now rewrite (tabk_S _ _ K1).
        -- apply (user_data _ _ _ _ _ _ P2). split; [rewrite app_length; cbn; lia|]. unfold codesk. rewrite (tabk_S _ _ K1). exact U2.
        -- apply outs_snoc_ok; [exact OO|]. rewrite U1, K1. eauto.
        -- congruence.
    + destruct U as (U1 & U2). apply (G (r_heap s) (r_tab s) b (URound (length (r_tab s)) 0 []) outs); auto.
      * rewrite HT. repeat split; auto. lia.
      * intros _. apply BU. discriminate.
    + destruct U as (U1 & U2 & U3 & U4 & U5). assert (BC : exists i, nth_error calls (length outs) = Some (CAdd i)) by (apply BU; discriminate).
      assert (EE : forall P : Prop, (forall todo, TUser (skipn b calls) (URound used pos objs) outs = TUser todo (URound used pos objs) outs -> P) -> P) by (intros P HH; exact (HH _ eq_refl)).
      destruct (nth_error (r_tab s) pos) as [[c j]|] eqn:N.
      * apply (G (r_heap s) (r_tab s) b (URound used (S pos) (objs ++ [j])) outs); auto.
        -- cbn [estep]. rewrite U3, HT, Nat.eqb_refl; cbn [negb]; rewrite <- HT, N; reflexivity.
        -- rewrite HT in N. pose proof (nth_pos _ _ _ N). split; [exact U1|]. split; [exact U2|]. split; [exact U3|]. split; [lia|]. rewrite (firstn_S _ _ _ N), map_app, <- U5. reflexivity.
      * assert (L : length (tabk b) <= pos) by (rewrite HT in N; now apply nth_error_None).
        assert (EO : objs = map snd (tabk b)) by (rewrite U5, firstn_all2 by exact L; reflexivity).
        destruct (np_puts_fine (codesk b) (at_ref (r_heap s) 0) PO) as (F1 & F2).
        apply (G (r_heap s) (r_tab s) b (UPuts (np_puts (codesk b) (at_ref (r_heap s) 0))) outs); auto.
        -- cbn [estep]. rewrite HP. rewrite U3, HT, Nat.eqb_refl; cbn [negb]; rewrite <- HT, N, (round_codes _ b objs HC EO); reflexivity.
        -- split; [exact U1|]. split; [exact F1|]. intros c F. replace (existsb (Z.eqb c) _) with true; [now apply U2|]. symmetry. apply existsb_exists. exists c. split; [now apply F2|apply Z.eqb_refl].
    + destruct U as (U1 & (U2 & U3) & U4). destruct puts as [|[c d] puts].
      * apply (G (r_heap s) (r_tab s) b UNext (outs ++ [UBool true])); auto.
        -- split; [rewrite app_length; cbn; lia|]. intros c F. rewrite (U4 c F). reflexivity.
        -- apply outs_snoc_ok; [exact OO|]. destruct BU as (i & ->); [discriminate|reflexivity].
        -- congruence.
      * destruct (U3 c d ltac:(now left)) as (IC & x & -> & FX).
        assert (HP' : has_property c (at_ref (r_heap s) 0) = true) by now apply profile_has.
        apply (G (put (r_heap s) 0 (store c x (at_ref (r_heap s) 0))) (r_tab s) b (UPuts puts) outs); auto.
        -- cbn [estep]. rewrite HP, HP'. reflexivity.
        -- apply put_codes; [exact HC|]. apply data_code.
        -- rewrite at_put by lia. cbn [Nat.eqb]. now apply profile_ok_data.
        -- cbn [map fst] in U2. inversion U2 as [|x1 l1 N1 N2]; subst x1 l1. split; [exact U1|]. split; [split; [exact N2|intros c' d' I; apply U3; now right]|].
           intros c' F. rewrite at_put by lia. cbn [Nat.eqb]. unfold store. rewrite get_data_set, (U4 c' F). f_equal. cbn [map fst existsb].
           destruct (Z.eqb_spec c c') as [->|N].
           ++ rewrite (FX F). replace (existsb (Z.eqb c') (map fst puts)) with false; [reflexivity|]. symmetry. apply Bool.not_true_is_false. intros X. apply existsb_exists in X. destruct X as (y & Y1 & Y2). apply Z.eqb_eq in Y2. subst y. contradiction.
           ++ destruct (Z.eqb_spec c' c) as [X|X]; [congruence|]. reflexivity.
        -- intros _. apply BU. discriminate.
  - (* a request *)
    assert (G : forall h t', estep (r_heap s) (r_tab s) (r_prof s) t = (h, r_tab s, t') -> map o_code h = map o_code h0 ->
      profile_ok (at_ref h 0) -> same_five (at_ref (r_heap s) 0) (at_ref h 0) -> (forall todo pc outs, t' <> TUser todo pc outs) -> here (rstep s (S i))).
    { intros h t' X1 X2 X3 X4 X5. rewrite (rstep_at _ _ _ _ _ _ T X1). unfold here. cbn [r_prof r_heap r_tab r_thr].
      split; [exact HP|]. split; [exact X2|]. split; [exact X3|]. split; [exact PL|]. split.
      - intros u todo pc1 outs1. rewrite nth_put. destruct (Nat.eqb (S u) (S i)); [rewrite T; intros Q; destruct (X5 todo pc1 outs1); congruence|apply NU].
      - exists pc, outs, b. split; [rewrite nth_put; cbn [Nat.eqb]; exact E|]. split; [exact BL|]. split; [exact HT|]. split; [exact (user_data _ _ _ _ _ _ X4 U)|]. auto. }
    assert (GP : forall j p, estep (r_heap s) (r_tab s) (r_prof s) t = (put (r_heap s) j (fst (pstep (at_ref (r_heap s) j) p)), r_tab s, TServe j (snd (pstep (at_ref (r_heap s) j) p))) -> here (rstep s (S i))).
    { intros j p X. destruct (Nat.lt_ge_cases j (length (r_heap s))) as [L|L].
      - apply (G _ _ X); [apply put_codes; [exact HC|apply pstep_code]| | |discriminate].
        + rewrite at_put by exact L. destruct (Nat.eqb_spec 0 j) as [<-|]; [now apply pstep_prof|exact PO].
        + rewrite at_put by exact L. destruct (Nat.eqb_spec 0 j) as [<-|]; [now apply pstep_prof|intros c _; reflexivity].
      - assert (EP : forall o, put (r_heap s) j o = r_heap s).
        { intros o. clear -L. revert j L. generalize (r_heap s). intros h. induction h as [|x h IH]; intros [|j] L; cbn in *; try reflexivity; [lia|]. f_equal. apply IH. lia. }
        rewrite EP in X. apply (G _ _ X); [exact HC|exact PO|intros c _; reflexivity|discriminate]. }
    destruct t as [todo pc1 outs1|req|j p|].
    + destruct (NU _ _ _ _ T).
    + destruct (zget (m_DEOJ req) (r_tab s)) as [j|] eqn:Z1.
      * apply (GP j (SBegin req)). cbn [estep]. rewrite key_of, Z1. destruct (pstep _ _); reflexivity.
      * apply (G (r_heap s) TNone); [cbn [estep]; rewrite key_of, Z1; reflexivity|exact HC|exact PO|intros c _; reflexivity|discriminate].
    + apply (GP j p). cbn [estep]. destruct (pstep _ _); reflexivity.
    + apply (G (r_heap s) TNone); [reflexivity|exact HC|exact PO|intros c _; reflexivity|discriminate].
Qed.
Lemma here_run s sched : here s -> here (rrun s sched).
Proof. revert s. induction sched as [|i sched IH]; intros s H; [exact H|]. apply (IH (rstep s i)). now apply here_step. Qed.
End One.

(** ** A started node *)
Section Started.
Context {PS : PySet}.
Lemma adds_snoc ops o s : fst (local_adds (ops ++ [o]) s) = fst (local_add_object o (fst (local_adds ops s))).
Proof.
  revert s. induction ops as [|x ops IH]; intros s; cbn [app local_adds].
  - cbn [fst]. destruct (local_add_object o s). reflexivity.
  - destruct (local_add_object x s) as [s1 y]. specialize (IH s1). destruct (local_adds (ops ++ [o]) s1), (local_adds ops s1). exact IH.
Qed.
Lemma combine_keys (ks : list Z) (n : nat) : length ks = n -> map fst (combine ks (seq 0 n)) = ks.
Proof.
  revert n. generalize 0. induction ks as [|k ks IH]; intros a n <-; [reflexivity|]. cbn. f_equal. now apply IH.
Qed.
Lemma combine_nth (ks : list Z) (a : nat) c i : In (c, i) (combine ks (seq a (length ks))) -> a <= i /\ nth_error ks (i - a) = Some c.
Proof.
  revert a. induction ks as [|k ks IH]; intros a H; [destruct H|]. cbn [length seq combine] in H. destruct H as [H|H].
  - inversion H; subst. rewrite Nat.sub_diag. auto.
  - apply IH in H. destruct H as (L & H). split; [lia|]. replace (i - a) with (S (i - S a)) by lia. exact H.
Qed.
Lemma table_keys ln : dkeys (node_table ln) = dkeys (ln_objs ln).
Proof. unfold node_table, dkeys. apply combine_keys. now rewrite map_length. Qed.
Lemma table_keyed ln devs c i : lwf ln -> In (c, i) (node_table ln) -> o_code (at_ref (node_heap ln devs) i) = c /\ i < length (node_heap ln devs).
Proof.
  intros W H. unfold node_table in H. rewrite <- (map_length fst (ln_objs ln)) in H. apply combine_nth in H. destruct H as (_ & H). rewrite Nat.sub_0_r in H.
  rewrite nth_error_map in H. destruct (nth_error (ln_objs ln) i) as [[k o]|] eqn:E; [|discriminate]. cbn in H. assert (k = c) by congruence. subst k.
  unfold at_ref, node_heap. assert (N : nth_error (map snd (ln_objs ln) ++ devs) i = Some o).
  { rewrite nth_error_app1; [rewrite nth_error_map, E; reflexivity|rewrite map_length; apply nth_error_Some; congruence]. }
  split; [|apply nth_error_Some; congruence]. rewrite (nth_error_nth _ _ _ N). apply W. now apply nth_error_In in E.
Qed.
(** The keys of the table follow the keys of the sequential node. *)
Lemma keys_step {A B} k (x : A) (y : B) l l' : dkeys l = dkeys l' -> dkeys (zset k x l) = dkeys (zset k y l').
Proof.
  intros E. rewrite !zkeys_zset. assert (X : isSome (zget k l) = isSome (zget k l')).
  { destruct (zget k l) eqn:G; destruct (zget k l') eqn:G'; try reflexivity; exfalso.
    - assert (I : In k (dkeys l)) by (apply zget_some; eauto). rewrite E in I. apply zget_some in I. destruct I; congruence.
    - assert (I : In k (dkeys l')) by (apply zget_some; eauto). rewrite <- E in I. apply zget_some in I. destruct I; congruence. }
  destruct (zget k l), (zget k l'); try discriminate; rewrite E; reflexivity.
Qed.
Lemma legal_profile h calls : Forall (legal h) calls -> no_profile (adds_of h calls).
Proof.
  intros L o I. unfold adds_of in I. apply in_flat_map in I. destruct I as (c & C & I). rewrite Forall_forall in L. apply L in C.
  destruct c as [i|]; [|destruct I]. destruct I as [I|[]]. destruct C as (o' & E & N). congruence.
Qed.
Lemma codesk_planned ln devs calls b : linv ln -> Forall (legal (node_heap ln devs)) calls ->
  linv (fst (local_adds (adds_of (node_heap ln devs) (firstn b calls)) ln)) /\
  codesk (node_heap ln devs) (node_table ln) calls b = dkeys (ln_objs (fst (local_adds (adds_of (node_heap ln devs) (firstn b calls)) ln))).
Proof.
  intros L A. unfold codesk, tabk. assert (A' : Forall (legal (node_heap ln devs)) (firstn b calls)) by (apply Forall_forall; intros x X; rewrite Forall_forall in A; apply A; rewrite <- (firstn_skipn b calls); apply in_app_iff; now left).
  revert A'. generalize (firstn b calls). intros l. induction l as [|c l IH] using rev_ind; intros A'.
  - cbn. split; [exact L|]. apply table_keys.
  - apply Forall_app in A'. destruct A' as (A1 & A2). specialize (IH A1). destruct IH as (I1 & I2). rewrite fold_left_app. unfold adds_of. rewrite flat_map_app. fold (adds_of (node_heap ln devs) l).
    inversion A2 as [|x y A3 _]; subst x y. destruct c as [i|i k d]; cbn [fold_left flat_map app add1]; [|now rewrite app_nil_r].
    destruct A3 as (o & E & N). rewrite E, adds_snoc. destruct (add_object_ok _ o I1 N) as (s' & -> & J1 & J2 & _). cbn [fst]. split; [exact J1|]. rewrite J2.
    rewrite (at_ref_some _ _ _ E). now apply keys_step.
Qed.
Lemma planned_says ln devs calls b c : linv ln -> Forall (legal (node_heap ln devs)) calls -> In c five ->
  planned c ln devs (firstn b calls) = Some (says c (codesk (node_heap ln devs) (node_table ln) calls b)).
Proof.
  intros L A F. destruct (codesk_planned ln devs calls b L A) as (I & ->). unfold planned. destruct (linv_data _ c I) as (p & _ & -> & _ & S).
  rewrite lwf_codes in S by apply I. apply shows_shown in S. now apply S.
Qed.
(** The node profile comes first. *)
Definition first_np (s : lnode) : Prop := exists k, dkeys (ln_objs s) = NP :: k.
Lemma first_np_adds ops s : linv s -> no_profile ops -> first_np s -> first_np (fst (local_adds ops s)).
Proof.
  intros L N (k & K). unfold first_np. destruct (local_adds_ok ops s L N) as (_ & _ & -> & _). rewrite K. clear. revert k.
  generalize (added_codes ops). intros l. induction l as [|c l IH]; intros k; [now exists k|]. cbn [fold_left]. destruct (existsb _ _); [apply IH|]. exact (IH (k ++ [c])).
Qed.
Lemma first_np_zget s : linv s -> first_np s -> zget NP (node_table s) = Some 0.
Proof.
  intros L (k & K). unfold node_table, dkeys in *. destruct (ln_objs s) as [|[a o] r]; [discriminate|]. cbn [map fst] in *. assert (a = NP) by congruence. subst a. reflexivity.
Qed.
Lemma np_stays h tab0 calls : zget NP tab0 = Some 0 -> Forall (legal h) calls -> forall b, zget NP (tabk h tab0 calls b) = Some 0.
Proof.
  intros Z0 A b. unfold tabk. assert (A' : Forall (legal h) (firstn b calls)) by (apply Forall_forall; intros x X; rewrite Forall_forall in A; apply A; rewrite <- (firstn_skipn b calls); apply in_app_iff; now left).
  revert A'. generalize (firstn b calls). intros l. induction l as [|c l IH] using rev_ind; intros A'; [exact Z0|]. apply Forall_app in A'. destruct A' as (A1 & A2). specialize (IH A1).
  rewrite fold_left_app. cbn [fold_left]. inversion A2 as [|x y A3 _]; subst x y. destruct c as [i|i k d]; cbn [add1]; [|exact IH].
  destruct A3 as (o & E & N). rewrite (at_ref_some _ _ _ E), zget_zset_other; [exact IH|]. unfold NP. congruence.
Qed.
Lemma started_here c r s0 ops devs calls reqs : new_local c r = (s0, Ok tt) -> no_profile ops -> let ln := fst (local_adds ops s0) in
  Forall (legal (node_heap ln devs)) calls -> linv ln /\ zget NP (node_table ln) = Some 0 /\
  here (node_heap ln devs) (node_table ln) calls (running ln devs calls reqs).
Proof.
  intros N NPr ln A. destruct (new_local_ok c r) as (s1 & E1 & L1 & K1 & _). assert (s1 = s0) by congruence. subst s1.
  destruct (local_adds_ok ops s0 L1 NPr) as (L & _). fold ln in L. assert (F : first_np ln) by (apply first_np_adds; [exact L1|exact NPr|exists []; exact K1]).
  split; [exact L|]. pose proof (first_np_zget ln L F) as Z0. split; [exact Z0|].
  pose proof L as (_ & W & ND & p & G & PO & S). destruct F as (k & K).
  assert (A0 : at_ref (node_heap ln devs) 0 = p).
  { unfold at_ref, node_heap. unfold dkeys in K. destruct (ln_objs ln) as [|[a o] rest] eqn:EO; [discriminate|]. cbn [map fst] in K. assert (a = NP) by congruence. subst a.
    cbn in G. cbn. congruence. }
  unfold here, running. cbn [r_prof r_heap r_tab r_thr]. split; [reflexivity|]. split; [reflexivity|]. rewrite A0. split; [exact PO|]. split.
  { unfold node_heap. unfold dkeys in K. destruct (ln_objs ln); [discriminate|]. cbn. lia. }
  split; [intros t todo pc outs; cbn [nth_error]; rewrite nth_error_map; destruct (nth_error reqs t); discriminate|].
  exists UNext, [], 0. split; [reflexivity|]. split; [lia|]. split; [reflexivity|]. split.
  - split; [reflexivity|]. unfold codesk, tabk. cbn [firstn fold_left]. rewrite table_keys. now apply shows_shown.
  - split; [intros j x; destruct j; discriminate|]. congruence.
Qed.
End Started.

Lemma user_bounds {PS : PySet} h0 tab0 calls s : here h0 tab0 calls s -> exists b, begun calls s = b /\ b <= length calls /\ (returned s = b \/ S (returned s) = b) /\ r_tab s = tabk h0 tab0 calls b /\
  (forall c, In c five -> exists k, (returned s <= k <= b)%nat /\ get_property_data c (at_ref (r_heap s) 0) = Some (says c (codesk h0 tab0 calls k))) /\
  outs_ok calls (results s).
Proof.
  intros (HP & HC & PO & PL & NU & pc & outs & b & E & BL & HT & U & OO & BU). exists b. unfold begun, returned, results. rewrite E.
  split; [rewrite skipn_length; lia|]. split; [exact BL|]. split; [|split; [exact HT|split; [|exact OO]]].
  - destruct pc; cbn [user_ok] in U; destruct U as (U & _); auto.
  - intros c F. destruct pc; cbn [user_ok] in U.
    + destruct U as (U1 & U2). exists b. split; [lia|]. now apply U2.
    + destruct U as (U1 & U2). exists (length outs). split; [lia|]. now apply U2.
    + destruct U as (U1 & U2 & _). exists (length outs). split; [lia|]. now apply U2.
    + destruct U as (U1 & _ & U2). exists (if existsb (Z.eqb c) (map fst puts) then length outs else b). split; [|now apply U2]. destruct (existsb _ _); lia.
Qed.
Lemma L_C90_values : forall (PS : PySet) c r s0 ops devs calls reqs sched code, new_local c r = (s0, Ok tt) -> no_profile ops ->
  let ln := fst (local_adds ops s0) in Forall (legal (node_heap ln devs)) calls -> In code five ->
  let s := rrun (running ln devs calls reqs) sched in
  exists b, returned s <= b <= begun calls s /\ live_data code s = planned code ln devs (firstn b calls).
Proof.
  intros PS c r s0 ops devs calls reqs sched code N NPr ln A F s. destruct (started_here c r s0 ops devs calls reqs N NPr A) as (L & Z0 & H). fold ln in L, Z0, H.
  assert (H' : here (node_heap ln devs) (node_table ln) calls s).
  { apply here_run; [intros k i I; exact (proj1 (table_keyed ln devs k i (proj1 (proj2 L)) I))|exact A|exact H]. }
  destruct (user_bounds _ _ _ _ H') as (b & B1 & B2 & B3 & B4 & B5 & _). destruct (B5 code F) as (k & K1 & K2). exists k. rewrite B1. split; [exact K1|].
  rewrite (planned_says ln devs calls k code L A F), <- K2. unfold live_data, found. rewrite B4. change 0x0EF001%Z with NP. rewrite (np_stays _ _ _ Z0 A).
  unfold at_ref. destruct H' as (_ & HC & _ & PL & _). apply codes_len in HC. rewrite (nth_error_nth' (r_heap s) nobody) by lia. reflexivity.
Qed.

(** ** What a request to the profile is told *)
Section Reading.
Context {PS : PySet}.
Lemma estep_user h tab prof todo p outs : exists h' tab' todo' p' outs', estep h tab prof (TUser todo p outs) = (h', tab', TUser todo' p' outs') /\
  length todo' <= length todo /\ length outs <= length outs'.
Proof.
  destruct p as [| |used pos objs|puts]; cbn [estep].
  - destruct todo as [|[i|i c d] todo]; [do 5 eexists; split; [reflexivity|lia]|do 5 eexists; split; [reflexivity|cbn; lia]|].
    destruct (set_property_data _ _ _). do 5 eexists. split; [reflexivity|]. rewrite app_length. cbn. lia.
  - do 5 eexists; split; [reflexivity|lia].
  - destruct (negb _); [do 5 eexists; split; [reflexivity|rewrite app_length; lia]|]. destruct (nth_error tab pos) as [[c i]|]; do 5 eexists; split; try reflexivity; lia.
  - destruct puts as [|[c d] puts]; [do 5 eexists; split; [reflexivity|rewrite app_length; lia]|].
    destruct (negb _); [do 5 eexists; split; [reflexivity|rewrite app_length; lia]|]. destruct d; do 5 eexists; (split; [reflexivity|rewrite ?app_length; lia]).
Qed.
Lemma grows calls s i : begun calls s <= begun calls (rstep s i) /\ returned s <= returned (rstep s i).
Proof.
  destruct (nth_error (r_thr s) i) as [t|] eqn:T; [|rewrite (rstep_none _ _ T); lia].
  destruct (estep (r_heap s) (r_tab s) (r_prof s) t) as [[h tab] t'] eqn:X. rewrite (rstep_at _ _ _ _ _ _ T X). unfold begun, returned, results. cbn [r_thr]. rewrite nth_put.
  destruct (Nat.eqb_spec 0 i) as [<-|N]; [|lia]. rewrite T. destruct t as [todo p outs|req|j p|]; cbn [length]; try lia.
  destruct (estep_user (r_heap s) (r_tab s) (r_prof s) todo p outs) as (h' & tab' & todo' & p' & outs' & Y & L1 & L2). rewrite Y in X. inversion X; subst. lia.
Qed.
Lemma grows_run calls sched : forall s, begun calls s <= begun calls (rrun s sched) /\ returned s <= returned (rrun s sched).
Proof.
  induction sched as [|i sched IH]; intros s; [cbn; lia|]. change (rrun s (i :: sched)) with (rrun (rstep s i) sched). destruct (grows calls s i). destruct (IH (rstep s i)). lia.
Qed.
Variables (h0 : list obj) (tab0 : list (Z * nat)) (calls : list ucall) (lo t : nat) (m : msg).
Hypothesis keyed0 : forall c i, In (c, i) tab0 -> o_code (at_ref h0 i) = c.
Hypothesis all_legal : Forall (legal h0) calls.
Hypothesis np0 : zget NP tab0 = Some 0.
Hypothesis m_read : m_ESV m = 0x62%Z.
Hypothesis m_prof : m_DEOJ m = NP.
Definition told (hi : nat) (asked : list prop) (told : list prop) : Prop :=
  map p_code told = map p_code asked /\
  forall p, In p told -> In (p_code p) five -> exists b, lo <= b <= hi /\ p_data p = says (p_code p) (codesk h0 tab0 calls b).
Lemma told_mono hi hi' a l : hi <= hi' -> told hi a l -> told hi' a l.
Proof. intros L (E & H). split; [exact E|]. intros p I F. destruct (H p I F) as (b & B & X). exists b. split; [lia|exact X]. Qed.
Definition reading (hi : nat) (x : thr) : Prop :=
  match x with
  | TReq r => r = m
  | TServe i (SProps r todo props n) => i = 0 /\ r = m /\ exists done, m_props m = done ++ todo /\ told hi done props
  | TServe i (SDone r) => i = 0 /\ exists e props, r = Ok (Some (mkmsg (m_TID m) (m_DEOJ m) (m_SEOJ m) e props [] [] None None)) /\ told hi (m_props m) props
  | _ => False
  end.
Lemma reading_mono hi hi' x : hi <= hi' -> reading hi x -> reading hi' x.
Proof.
  intros L. destruct x as [ | |i p|]; cbn [reading]; try (exact (fun H => H)). destruct p as [ | | |r todo ps n|r]; try (exact (fun H => H)).
  - intros (A & B & d & C & D). split; [exact A|]. split; [exact B|]. exists d. split; [exact C|]. exact (told_mono _ _ _ _ L D).
  - intros (A & e & ps & B & C). split; [exact A|]. exists e, ps. split; [exact B|]. exact (told_mono _ _ _ _ L C).
Qed.
Lemma read_esv n : exists e, response_esv 0x62 n = Some e.
Proof. destruct n; eexists; reflexivity. Qed.
Lemma answer_read props n : exists e, answer_of m props [] [] n = Ok (Some (mkmsg (m_TID m) (m_DEOJ m) (m_SEOJ m) e props [] [] None None)).
Proof. unfold answer_of. rewrite m_read. destruct (read_esv (n =? OPC m + OPCSet m + OPCGet m)%Z) as (e & ->). exists e. reflexivity. Qed.
Definition watched (s : rst) : Prop := here h0 tab0 calls s /\ lo <= returned s /\ exists x, nth_error (r_thr s) (S t) = Some x /\ reading (begun calls s) x.
Lemma watched_step s i : watched s -> watched (rstep s i).
Proof.
  intros (H & LO & x & X & R). pose proof (here_step h0 tab0 calls keyed0 all_legal s i H) as H'. destruct (grows calls s i) as (G1 & G2).
  split; [exact H'|]. split; [lia|].
  destruct (nth_error (r_thr s) i) as [y|] eqn:T; [|rewrite (rstep_none _ _ T); eauto].
  destruct (estep (r_heap s) (r_tab s) (r_prof s) y) as [[h tab] y'] eqn:E. revert G1. rewrite (rstep_at _ _ _ _ _ _ T E). intros G1. cbn [r_thr].
  rewrite nth_put. destruct (Nat.eqb_spec (S t) i) as [<-|N]; [|exists x; split; [exact X|exact (reading_mono _ _ _ G1 R)]].
  rewrite X. exists y'. split; [reflexivity|]. apply (reading_mono _ _ _ G1). assert (y = x) by congruence. subst y. clear G1 G2 H'.
  destruct (user_bounds _ _ _ _ H) as (b & B1 & B2 & B3 & B4 & B5 & _). rewrite B1 in R |- *.
  destruct H as (HP & HC & PO & PL & _).
  destruct x as [todo p outs|r|j p|]; cbn [reading] in R; try contradiction.
  - subst r. cbn [estep] in E. rewrite key_of, m_prof, B4, (np_stays _ _ _ np0 all_legal) in E. cbn [pstep] in E. rewrite m_read in E. change (negb (is_request 0x62)) with false in E. cbv iota in E.
    replace (o_handler (at_ref (r_heap s) 0)) with HSuper in E by (symmetry; apply PO). change (is_write_read_request 0x62) with false in E. cbv iota in E. inversion E; subst.
    cbn [reading]. split; [reflexivity|]. split; [reflexivity|]. exists []. split; [reflexivity|]. split; [reflexivity|]. intros p [].
  - destruct p as [ | | |r todo ps n|r]; try contradiction.
    + destruct R as (-> & -> & done & D & TD). cbn [estep] in E. destruct todo as [|mp todo]; cbn [pstep] in E.
      * destruct (answer_read ps n) as (e & A). rewrite A in E. inversion E; subst. cbn [reading]. split; [reflexivity|]. exists e, ps. split; [reflexivity|]. rewrite D, app_nil_r. exact TD.
      * rewrite m_read in E. change (do_plain 0x62) with do_read in E.
        rewrite do_read_builtin in E; [|left; apply PO|exact (profile_wf _ PO)]. inversion E; subst. clear E. cbn [reading]. split; [reflexivity|]. split; [reflexivity|].
        exists (done ++ [mp]). split; [rewrite <- app_assoc; exact D|]. destruct TD as (T1 & T2). split; [rewrite !map_app, T1; reflexivity|].
        intros p I F. apply in_app_iff in I. destruct I as [I|[<-|[]]]; [now apply T2|]. cbn [p_code p_data] in F |- *.
        destruct (B5 _ F) as (k & K1 & K2). exists k. split; [lia|]. unfold read_answer, get_property_data, get_property in *.
        destruct (zget (p_code mp) (o_props (at_ref (r_heap s) 0))) as [q|] eqn:Q; [|discriminate].
        rewrite (profile_readable _ _ q PO F Q). cbn [fst]. congruence.
    + destruct R as (-> & e & ps & -> & TD). cbn [estep pstep] in E. inversion E; subst. cbn [reading]. eauto 6.
Qed.
Lemma watched_run sched : forall s, watched s -> watched (rrun s sched).
Proof. induction sched as [|i sched IH]; intros s H; [exact H|]. apply (IH (rstep s i)). now apply watched_step. Qed.
End Reading.
Lemma untouched {PS : PySet} s sched t : ~ In t sched -> nth_error (r_thr (rrun s sched)) t = nth_error (r_thr s) t.
Proof.
  revert s. induction sched as [|i sched IH]; intros s N; [reflexivity|]. change (rrun s (i :: sched)) with (rrun (rstep s i) sched). rewrite IH by (intros X; apply N; now right).
  unfold rstep. destruct (nth_error (r_thr s) i); [|reflexivity]. destruct (estep _ _ _ _) as [[h tab] t']. cbn [r_thr]. rewrite nth_put. destruct (Nat.eqb_spec t i) as [->|]; [|reflexivity].
  destruct N. now left.
Qed.
Lemma L_C90_answers : forall (PS : PySet) c r s0 ops devs calls reqs s1 s2 t m i x, new_local c r = (s0, Ok tt) -> no_profile ops ->
  let ln := fst (local_adds ops s0) in Forall (legal (node_heap ln devs)) calls ->
  nth_error reqs t = Some m -> m_ESV m = 0x62%Z -> m_DEOJ m = 0x0EF001%Z -> ~ In (S t) s1 ->
  let a := rrun (running ln devs calls reqs) s1 in let z := rrun a s2 in
  nth_error (r_thr z) (S t) = Some (TServe i (SDone x)) ->
  exists ans, x = Ok (Some ans) /\ m_TID ans = m_TID m /\ m_DEOJ ans = m_SEOJ m /\ map p_code (m_props ans) = map p_code (m_props m) /\
  forall p, In p (m_props ans) -> In (p_code p) five ->
    exists b, returned a <= b <= begun calls z /\ planned (p_code p) ln devs (firstn b calls) = Some (p_data p).
Proof.
  intros PS c r s0 ops devs calls reqs s1 s2 t m i x N NPr ln A R ME MD NI a z X.
  destruct (started_here c r s0 ops devs calls reqs N NPr A) as (L & Z0 & H). fold ln in L, Z0, H.
  assert (K : forall k i, In (k, i) (node_table ln) -> o_code (at_ref (node_heap ln devs) i) = k) by (intros k i' I; exact (proj1 (table_keyed ln devs k i' (proj1 (proj2 L)) I))).
  pose proof (here_run _ _ _ K A _ s1 H) as Ha. fold a in Ha.
  assert (W : watched (node_heap ln devs) (node_table ln) calls (returned a) t m a).
  { split; [exact Ha|]. split; [lia|]. exists (TReq m). split; [|reflexivity]. unfold a. rewrite untouched by exact NI. cbn [running r_thr nth_error]. now rewrite nth_error_map, R. }
  apply (watched_run _ _ _ _ _ _ K A Z0 ME MD s2) in W. fold z in W. destruct W as (_ & _ & y & Y & RD). rewrite X in Y. assert (y = TServe i (SDone x)) by congruence. subst y.
  cbn [reading] in RD. destruct RD as (_ & e & ps & -> & T1 & T2). eexists. split; [reflexivity|]. cbn [m_TID m_DEOJ m_props]. split; [reflexivity|]. split; [reflexivity|]. split; [exact T1|].
  intros p I F. destruct (T2 p I F) as (b & B & E). exists b. split; [exact B|]. rewrite (planned_says ln devs calls b _ L A F), E. reflexivity.
Qed.

(** ** Results and ends *)
Lemma L_C90_returns : forall (PS : PySet) c r s0 ops devs calls reqs sched j x, new_local c r = (s0, Ok tt) -> no_profile ops ->
  let ln := fst (local_adds ops s0) in Forall (legal (node_heap ln devs)) calls ->
  let s := rrun (running ln devs calls reqs) sched in nth_error (results s) j = Some x ->
  match nth_error calls j with
  | Some (CAdd _) => x = UBool true
  | Some (CSet _ _ _) => exists b, x = UBool b
  | None => False
  end.
Proof.
  intros PS c r s0 ops devs calls reqs sched j x N NPr ln A s X. destruct (started_here c r s0 ops devs calls reqs N NPr A) as (L & Z0 & H). fold ln in L, Z0, H.
  assert (K : forall k i, In (k, i) (node_table ln) -> o_code (at_ref (node_heap ln devs) i) = k) by (intros k i' I; exact (proj1 (table_keyed ln devs k i' (proj1 (proj2 L)) I))).
  pose proof (here_run _ _ _ K A _ sched H) as H'. fold s in H'. destruct (user_bounds _ _ _ _ H') as (b & _ & _ & _ & _ & _ & O). exact (O j x X).
Qed.
Definition tpot (t : thr) : nat := match t with TReq m => 3 + length (m_props m) + length (m_sets m) + length (m_gets m) | TServe _ p => pot p | _ => 0 end.
Definition serving_one (t : thr) : Prop := match t with TUser _ _ _ => False | _ => True end.
Lemma serve_ends {PS : PySet} t sched : forall s x, nth_error (r_thr s) t = Some x -> serving_one x ->
  exists y, nth_error (r_thr (rrun s sched)) t = Some y /\ serving_one y /\ tpot y <= tpot x - steps_of t sched /\ (In t sched -> forall m, y <> TReq m) /\
    ((forall m, x <> TReq m) -> forall m, y <> TReq m).
Proof.
  induction sched as [|i sched IH]; intros s x E V.
  - exists x. cbn. split; [exact E|]. split; [exact V|]. split; [lia|]. split; [intros []|auto].
  - change (rrun s (i :: sched)) with (rrun (rstep s i) sched). unfold steps_of. cbn [count_occ]. fold (steps_of t sched).
    destruct (Nat.eq_dec i t) as [->|N].
    + destruct (estep (r_heap s) (r_tab s) (r_prof s) x) as [[h tab] x'] eqn:X. assert (XX : serving_one x' /\ tpot x' <= tpot x - 1 /\ forall m, x' <> TReq m).
      { destruct x as [|m|j p|]; [contradiction| | |]; cbn [estep] in X.
        - rewrite key_of in X. destruct (zget _ _); [|inversion X; subst; cbn; split; [exact I|]; split; [lia|discriminate]].
          pose proof (pstep_pot (at_ref (r_heap s) n) (SBegin m)) as Q. destruct (pstep _ _) as [o p]. inversion X; subst. cbn [snd] in Q. split; [exact I|]. split; [exact Q|discriminate].
        - pose proof (pstep_pot (at_ref (r_heap s) j) p) as Q. destruct (pstep _ _) as [o p']. inversion X; subst. cbn [snd] in Q. split; [exact I|]. split; [exact Q|discriminate].
        - inversion X; subst. cbn. split; [exact I|]. split; [lia|discriminate]. }
      destruct XX as (V' & P' & R'). rewrite (rstep_at _ _ _ _ _ _ E X).
      destruct (IH (mkrst h tab (r_prof s) (put (r_thr s) t x')) x') as (y & Y1 & Y2 & Y3 & Y4 & Y5); [cbn [r_thr]; rewrite nth_put, Nat.eqb_refl, E; reflexivity|exact V'|].
      exists y. split; [exact Y1|]. split; [exact Y2|]. split; [lia|]. split; [intros _; auto|auto].
    + destruct (IH (rstep s i) x) as (y & Y1 & Y2 & Y3 & Y4 & Y5); [|exact V|].
      { unfold rstep. destruct (nth_error (r_thr s) i); [|exact E]. destruct (estep _ _ _ _) as [[h tab] t']. cbn [r_thr]. rewrite nth_put. destruct (Nat.eqb_spec t i); [congruence|exact E]. }
      exists y. split; [exact Y1|]. split; [exact Y2|]. split; [exact Y3|]. split; [|exact Y5]. intros [?|?]; [congruence|auto].
Qed.
Lemma L_C90_served : forall (PS : PySet) ln devs calls reqs sched t m, nth_error reqs t = Some m ->
  3 + length (m_props m) + length (m_sets m) + length (m_gets m) <= steps_of (S t) sched ->
  let s := rrun (running ln devs calls reqs) sched in
  nth_error (r_thr s) (S t) = Some TNone \/ exists i x, nth_error (r_thr s) (S t) = Some (TServe i (SDone x)).
Proof.
  intros PS ln devs calls reqs sched t m R L s. destruct (serve_ends (S t) sched (running ln devs calls reqs) (TReq m)) as (y & Y1 & Y2 & Y3 & Y4 & _).
  - cbn [running r_thr nth_error]. now rewrite nth_error_map, R.
  - exact I.
  - fold s in Y1. assert (IN : In (S t) sched) by (apply (count_occ_In Nat.eq_dec); unfold steps_of in L; lia). specialize (Y4 IN). cbn [tpot] in Y3.
    rewrite Y1. destruct y as [|m'|j p|]; [contradiction|destruct (Y4 m'); reflexivity| |now left]. right. exists j. cbn [tpot] in Y3. assert (P0 : pot p = 0) by lia. destruct p; cbn [pot] in P0; try discriminate P0. eauto.
Qed.
(** The calls end. *)
Definition upot (B : nat) (p : upc) : nat :=
  match p with UNext => 0 | UIter => B + 11 | URound _ pos _ => B - pos + 10 | UPuts puts => length puts + 1 end.
Lemma table_len {PS : PySet} h0 tab0 calls b : length (tabk h0 tab0 calls b) <= length tab0 + length calls.
Proof.
  unfold tabk. assert (L : length (firstn b calls) <= length calls) by (rewrite firstn_length; lia). revert L. generalize (firstn b calls). intros l L.
  enough (length (fold_left (add1 h0) l tab0) <= length tab0 + length l) by lia. clear L. induction l as [|c l IH] using rev_ind; [cbn; lia|].
  rewrite fold_left_app, app_length. cbn [fold_left length]. destruct c as [i|]; cbn [add1]; [|lia].
  enough (forall t, length (zset (o_code (at_ref h0 i)) i t) <= S (length t)) as Q by (specialize (Q (fold_left (add1 h0) l tab0)); lia).
  intros t. assert (DL : forall d : list (Z * nat), length (dkeys d) = length d) by (intros d; apply map_length).
  rewrite <- (DL (zset _ _ _)), <- (DL t), zkeys_zset. destruct (zget _ t); cbn [isSome]; rewrite ?app_length; cbn [length]; lia.
Qed.
Lemma np_puts_len {PS : PySet} codes o : length (np_puts codes o) = 8.
Proof. unfold np_puts. destruct (np_instance_loop codes), (np_class_loop codes). reflexivity. Qed.
Definition left_over (B : nat) (calls : list ucall) (s : rst) : nat :=
  match nth_error (r_thr s) 0 with Some (TUser todo p _) => length todo * (B + 12) + upot B p | _ => 0 end.
Lemma left_step {PS : PySet} h0 tab0 calls s i : here h0 tab0 calls s -> let B := length tab0 + length calls in
  left_over B calls (rstep s i) <= left_over B calls s - (if Nat.eqb i 0 then 1 else 0).
Proof.
  intros (HP & HC & PO & PL & NU & pc & outs & b & E & BL & HT & U & OO & BU) B.
  destruct (nth_error (r_thr s) i) as [t|] eqn:T.
  2:{ rewrite (rstep_none _ _ T). destruct i; [congruence|]. cbn [Nat.eqb]. lia. }
  destruct (estep (r_heap s) (r_tab s) (r_prof s) t) as [[h tab] t'] eqn:X. rewrite (rstep_at _ _ _ _ _ _ T X). unfold left_over. cbn [r_thr]. rewrite nth_put.
  destruct i as [|i]; cbn [Nat.eqb]; [|lia]. rewrite T. assert (t = TUser (skipn b calls) pc outs) by congruence. subst t.
  pose proof (table_len h0 tab0 calls b) as TL. fold B in TL. rewrite <- HT in TL.
  destruct pc as [| |used pos objs|puts]; cbn [estep] in X.
  - destruct (skipn b calls) as [|[j|j c d] todo]; [inversion X; subst; cbn; lia|inversion X; subst; cbn [upot length]; lia|].
    destruct (set_property_data _ _ _). inversion X; subst. cbn [upot length]. lia.
  - inversion X; subst. cbn [upot]. lia.
  - destruct U as (U1 & U2 & U3 & U4 & U5). rewrite HT in X. rewrite U3, Nat.eqb_refl in X. cbn [negb] in X. rewrite <- HT in X.
    destruct (nth_error (r_tab s) pos) as [[c j]|] eqn:N.
    + inversion X; subst. apply nth_pos in N. cbn [upot]. lia.
    + inversion X; subst. cbn [upot]. rewrite np_puts_len. lia.
  - destruct U as (U1 & (U2 & U3) & U4). destruct puts as [|[c d] puts]; [inversion X; subst; cbn [upot length]; lia|].
    destruct (negb _); [inversion X; subst; cbn [upot length]; lia|]. destruct d; inversion X; subst; cbn [upot length]; lia.
Qed.
Lemma left_run {PS : PySet} h0 tab0 calls sched : (forall c i, In (c, i) tab0 -> o_code (at_ref h0 i) = c) -> Forall (legal h0) calls ->
  forall s, here h0 tab0 calls s -> let B := length tab0 + length calls in left_over B calls (rrun s sched) <= left_over B calls s - steps_of 0 sched.
Proof.
  intros K A. induction sched as [|i sched IH]; intros s H B; [cbn; lia|].
  change (rrun s (i :: sched)) with (rrun (rstep s i) sched). pose proof (left_step h0 tab0 calls s i H) as L. fold B in L. specialize (IH (rstep s i) (here_step _ _ _ K A s i H)). fold B in IH. cbn zeta in IH, L.
  unfold steps_of in *. cbn [count_occ]. destruct (Nat.eq_dec i 0) as [->|N]; [cbn [Nat.eqb] in L; lia|]. destruct (Nat.eqb_spec i 0); [congruence|]. lia.
Qed.
Lemma L_C90_ends : forall (PS : PySet) c r s0 ops devs calls reqs sched, new_local c r = (s0, Ok tt) -> no_profile ops ->
  let ln := fst (local_adds ops s0) in Forall (legal (node_heap ln devs)) calls ->
  length calls * (length (node_table ln) + length calls + 12) <= steps_of 0 sched ->
  let s := rrun (running ln devs calls reqs) sched in
  returned s = length calls /\ forall code, In code five -> live_data code s = planned code ln devs calls.
Proof.
  intros PS c r s0 ops devs calls reqs sched N NPr ln A ST s. destruct (started_here c r s0 ops devs calls reqs N NPr A) as (L & Z0 & H). fold ln in L, Z0, H.
  assert (K : forall k i, In (k, i) (node_table ln) -> o_code (at_ref (node_heap ln devs) i) = k) by (intros k i' I; exact (proj1 (table_keyed ln devs k i' (proj1 (proj2 L)) I))).
  pose proof (here_run _ _ _ K A _ sched H) as H'. fold s in H'. pose proof (left_run _ _ _ sched K A _ H) as LF. cbn zeta in LF. fold s in LF.
  assert (R : returned s = length calls).
  { unfold left_over at 2 in LF. cbn [running r_thr nth_error upot] in LF. assert (Z1 : left_over (length (node_table ln) + length calls) calls s = 0) by lia. clear LF.
    destruct H' as (_ & _ & _ & _ & _ & pc & outs & b & E & BL & HT & U & _). unfold left_over in Z1. rewrite E in Z1. unfold returned, results. rewrite E.
    destruct pc; cbn [upot user_ok] in Z1, U; try lia. destruct U as (U & _).
    assert (length (skipn b calls) = 0) by (destruct (skipn b calls); [reflexivity|cbn [length] in Z1; lia]). rewrite skipn_length in H0. lia. }
  split; [exact R|]. intros code F. destruct (L_C90_values PS c r s0 ops devs calls reqs sched code N NPr A F) as (b & B & V). fold ln s in B, V. rewrite R in B.
  rewrite V, firstn_all2 by lia. reflexivity.
Qed.

(** ** A call alone *)
Section Alone.
Context {PS : PySet}.
Lemma rrun_repeat s i n : rrun s (repeat i (S n)) = rrun (rstep s i) (repeat i n).
Proof. reflexivity. Qed.
Lemma rounds h tab prof todo outs ths : forall k pos, k = length tab - pos -> pos <= length tab ->
  rrun (mkrst h tab prof (TUser todo (URound (length tab) pos (map snd (firstn pos tab))) outs :: ths)) (repeat 0 k) =
  mkrst h tab prof (TUser todo (URound (length tab) (length tab) (map snd tab)) outs :: ths).
Proof.
  induction k as [|k IH]; intros pos E L.
  - assert (pos = length tab) by lia. subst pos. now rewrite firstn_all.
  - destruct (nth_error tab pos) as [[c i]|] eqn:N; [|apply nth_error_None in N; lia].
    rewrite rrun_repeat. unfold rstep. cbn [r_thr nth_error r_heap r_tab r_prof estep]. rewrite Nat.eqb_refl. cbn [negb]. rewrite N. cbn [put].
    replace (map snd (firstn pos tab) ++ [i]) with (map snd (firstn (S pos) tab)) by (rewrite (firstn_S _ _ _ N), map_app; reflexivity).
    apply IH; [lia|]. apply nth_pos in N. lia.
Qed.
Lemma to_puts h tab prof todo i ths outs : let tab' := zset (o_code (at_ref h i)) i tab in
  rrun (mkrst h tab prof (TUser (CAdd i :: todo) UNext outs :: ths)) (repeat 0 (3 + length tab')) =
  mkrst h tab' prof (TUser todo (UPuts (np_puts (map (fun j => o_code (at_ref h j)) (map snd tab')) (at_ref h prof))) outs :: ths).
Proof.
  intros tab'. replace (3 + length tab') with (2 + (length tab' + 1)) by lia. change (repeat 0 (2 + (length tab' + 1))) with (0 :: 0 :: repeat 0 (length tab' + 1)).
  change (rrun ?s (0 :: 0 :: ?l)) with (rrun (rstep (rstep s 0) 0) l). unfold rstep at 2. cbn [r_thr nth_error r_heap r_tab r_prof estep put]. fold tab'.
  unfold rstep at 1. cbn [r_thr nth_error r_heap r_tab r_prof estep put]. rewrite repeat_app, rrun_app. pose proof (rounds h tab' prof todo outs ths (length tab') 0 ltac:(lia) ltac:(lia)) as R. cbn [firstn map] in R. rewrite R.
  cbn [repeat rrun fold_left]. unfold rstep. cbn [r_thr nth_error r_heap r_tab r_prof estep put]. rewrite Nat.eqb_refl. cbn [negb].
  replace (nth_error tab' (length tab')) with (@None (Z * nat)) by (symmetry; apply nth_error_None; lia). reflexivity.
Qed.
Definition do_put (o : obj) (x : Z * res (list Z)) : obj := match snd x with Ok d => store (fst x) d o | Err _ => o end.
Lemma put_put {A} (l : list A) i x y : put (put l i x) i y = put l i y.
Proof. revert i. induction l as [|z l IH]; intros [|i]; cbn; try reflexivity. now rewrite IH. Qed.
Lemma put_same {A} (l : list A) i d : i < length l -> put l i (nth i l d) = l.
Proof. revert i. induction l as [|z l IH]; intros [|i] L; cbn in *; try lia; [reflexivity|]. rewrite IH by lia. reflexivity. Qed.
Lemma puts_run tab todo outs ths : forall puts h, 0 < length h -> profile_ok (at_ref h 0) -> (forall c d, In (c, d) puts -> In c np_codes /\ exists x, d = Ok x) ->
  rrun (mkrst h tab 0 (TUser todo (UPuts puts) outs :: ths)) (repeat 0 (length puts + 1)) =
  mkrst (put h 0 (fold_left do_put puts (at_ref h 0))) tab 0 (TUser todo UNext (outs ++ [UBool true]) :: ths).
Proof.
  induction puts as [|[c d] puts IH]; intros h L P F.
  - cbn [length Nat.add repeat rrun fold_left]. unfold rstep. cbn [r_thr nth_error r_heap r_tab r_prof estep put]. unfold at_ref. now rewrite put_same.
  - destruct (F c d) as (I & x & ->); [now left|]. cbn [length Nat.add]. rewrite rrun_repeat. unfold rstep. cbn [r_thr nth_error r_heap r_tab r_prof estep].
    rewrite (profile_has _ _ P I). cbn [negb put]. rewrite IH.
    + cbn [fold_left]. rewrite put_put, at_put by exact L. reflexivity.
    + now rewrite length_put.
    + rewrite at_put by exact L. cbn [Nat.eqb]. now apply profile_ok_data.
    + intros c' d' I'. apply F. now right.
Qed.
End Alone.

Section Alone2.
Context {PS : PySet}.
Lemma np_update_puts codes p : profile_ok p -> np_update_map codes p = (fold_left do_put (np_puts codes p) p, Ok true).
Proof.
  intros P. unfold np_update_map, np_update_instances, np_puts. rewrite instance_loop.
  set (n := zlen (device_codes codes)). set (l := flat_map (be 3) (device_codes codes)).
  rewrite set_data_true by (apply profile_has; [assumption|cbn; tauto]).
  set (p1 := fst (set_property_data 0xD3 _ p)). assert (P1 : profile_ok p1) by now apply profile_ok_data.
  rewrite set_data_true by (apply profile_has; [assumption|cbn; tauto]).
  set (p2 := fst (set_property_data 0xD5 _ p1)). assert (P2 : profile_ok p2) by now apply profile_ok_data.
  rewrite set_data_true by (apply profile_has; [assumption|cbn; tauto]).
  set (p3 := fst (set_property_data 0xD6 _ p2)). assert (P3 : profile_ok p3) by now apply profile_ok_data.
  unfold np_update_classes. rewrite class_loop.
  rewrite set_data_true by (apply profile_has; [assumption|cbn; tauto]).
  set (p4 := fst (set_property_data 0xD4 _ p3)). assert (P4 : profile_ok p4) by now apply profile_ok_data.
  rewrite set_data_true by (apply profile_has; [assumption|cbn; tauto]).
  set (p5 := fst (set_property_data 0xD7 _ p4)). assert (P5 : profile_ok p5) by now apply profile_ok_data.
  pose proof P5 as (T & R & M & _). rewrite (update_maps_ok p5 _ T R M). f_equal.
  assert (CW : forall f, attr_only f -> codes_where f p = codes_where f p5).
  { intros f F. unfold p5, p4, p3, p2, p1. now rewrite !codes_where_data. }
  rewrite (CW _ attr_only_anno), (CW _ attr_only_get), (CW _ attr_only_set).
  fold (map_of is_announce_required p5) (map_of is_read_enabled p5) (map_of is_write_enabled p5).
  destruct (map_of_ok _ p5 _ attr_only_anno T R) as (A1 & A2 & _).
  destruct (map_of_ok _ p5 _ attr_only_get T R) as (B1 & B2 & _).
  destruct (map_of_ok _ p5 _ attr_only_set T R) as (C1 & C2 & _).
  rewrite !map_bytes_ok by (try assumption; lia). cbn [fold_left]. unfold do_put at 8. cbn [fst snd]. fold (store 0xD3 (from_int_n n 3) p) in p1.
  unfold do_put. cbn [fst snd]. reflexivity.
Qed.
End Alone2.
Section Alone3.
Context {PS : PySet}.
Lemma combine_zget (l : list (Z * obj)) a c :
  match zget c (combine (map fst l) (seq a (length l))) with Some j => a <= j /\ nth_error (map snd l) (j - a) = zget c l /\ zget c l <> None | None => zget c l = None end.
Proof.
  revert a. induction l as [|[k o] l IH]; intros a; [reflexivity|]. cbn [map fst snd length seq combine dget]. destruct (Z.eqb c k).
  - rewrite Nat.sub_diag. split; [lia|]. split; [reflexivity|discriminate].
  - specialize (IH (S a)). destruct (zget c (combine _ _)) as [j|]; [|exact IH]. destruct IH as (H1 & H2 & H3). split; [lia|]. split; [|exact H3].
    replace (j - a) with (S (j - S a)) by lia. exact H2.
Qed.
Lemma found_start ln devs c : match zget c (node_table ln) with Some j => nth_error (node_heap ln devs) j | None => None end = zget c (ln_objs ln).
Proof.
  unfold node_table, node_heap. pose proof (combine_zget (ln_objs ln) 0 c) as H. destruct (zget c (combine _ _)) as [j|]; [|now rewrite H].
  destruct H as (_ & H & N). rewrite Nat.sub_0_r in H. rewrite nth_error_app1; [exact H|]. apply nth_error_Some. congruence.
Qed.
Lemma add_exact ln o p : linv ln -> o_code o <> NP -> zget NP (ln_objs ln) = Some p -> profile_ok p ->
  local_add_object (Some o) ln = (put_obj NODE_PROFILE_CODE (fold_left do_put (np_puts (dkeys (zset (o_code o) o (ln_objs ln))) p) p)
    (set_ln_node (fst (node_add_object (Some o) (ln_node ln))) ln), Ok true).
Proof.
  intros L N G P. unfold local_add_object. replace (o_code o =? NODE_PROFILE_CODE)%Z with false by (symmetry; apply Z.eqb_neq; exact N).
  unfold update_profile. set (s := set_ln_node _ ln).
  assert (E1 : ln_prof s = InTable) by apply L. assert (E2 : ln_objs s = zset (o_code o) o (ln_objs ln)) by reflexivity.
  assert (W : lwf s) by (intros k x I; rewrite E2 in I; apply (in_dset Z.eqb) in I; destruct I as [I|[I|(a & Ha & I)]]; [congruence|now apply (proj1 (proj2 L))|inversion I; subst; apply Z.eqb_eq in Ha; congruence]).
  rewrite E1. assert (E3 : zget NODE_PROFILE_CODE (ln_objs s) = Some p) by (rewrite E2, zget_zset_other; [exact G|unfold NODE_PROFILE_CODE, NP in *; congruence]).
  rewrite E3. pose proof (lwf_codes s W) as C. unfold node_codes in C. rewrite C, E2. rewrite (np_update_puts _ _ P). reflexivity.
Qed.
End Alone3.
Lemma L_C90_alone : forall (PS : PySet) c r s0 ops devs i o reqs, new_local c r = (s0, Ok tt) -> no_profile ops ->
  let ln := fst (local_adds ops s0) in nth_error (node_heap ln devs) i = Some o -> o_code o <> 0x0EF001%Z ->
  exists n, let s := rrun (running ln devs [CAdd i] reqs) (repeat 0 n) in
  results s = [UBool true] /\ snd (local_add_object (Some o) ln) = Ok true /\
  forall code, found code s = zget code (ln_objs (fst (local_add_object (Some o) ln))).
Proof.
  intros PS c r s0 ops devs i o reqs N NPr ln E NC.
  assert (A : Forall (legal (node_heap ln devs)) [CAdd i]) by (constructor; [exists o; auto|constructor]).
  destruct (started_here c r s0 ops devs [CAdd i] reqs N NPr A) as (L & Z0 & H). fold ln in L, Z0, H. cbn zeta in H.
  pose proof L as (_ & W & ND & p & G & PO & _). destruct H as (_ & _ & _ & PL & _).
  assert (A0 : nth_error (node_heap ln devs) 0 = Some p) by (pose proof (found_start ln devs NP) as F; rewrite Z0, G in F; exact F).
  set (h := node_heap ln devs) in *. pose proof (at_ref_some _ _ _ A0) as R0. pose proof (at_ref_some _ _ _ E) as Ri.
  set (tab := node_table ln) in *. set (tab' := zset (o_code o) i tab).
  assert (KC : map (fun j => o_code (at_ref h j)) (map snd tab') = dkeys (zset (o_code o) o (ln_objs ln))).
  { rewrite <- (keys_step (o_code o) i o tab (ln_objs ln) (table_keys ln)). fold tab'. unfold dkeys. rewrite map_map. apply map_ext_in. intros [k j] I. cbn [fst snd].
    apply (in_dset Z.eqb) in I. destruct I as [I|[I|(a & Ha & I)]].
    - assert (k = o_code o /\ j = i) as (-> & ->) by (split; congruence). now rewrite Ri.
    - exact (proj1 (table_keyed ln devs k j W I)).
    - apply Z.eqb_eq in Ha. assert (k = o_code o /\ j = i) as (-> & ->) by (split; congruence). now rewrite Ri. }
  exists ((3 + length tab') + (length (np_puts (dkeys (zset (o_code o) o (ln_objs ln))) p) + 1)). cbn zeta. rewrite repeat_app, rrun_app. unfold running. fold h tab.
  pose proof (to_puts h tab 0 [] i (map TReq reqs) []) as TP. cbn zeta in TP. rewrite Ri in TP. fold tab' in TP. rewrite TP, KC, R0. clear TP.
  destruct (np_puts_fine (dkeys (zset (o_code o) o (ln_objs ln))) p PO) as ((F1 & F2) & _).
  rewrite puts_run; [|exact PL|now rewrite R0|intros k d I; destruct (F2 k d I) as (X & x & Y & _); eauto].
  rewrite R0. split; [reflexivity|]. rewrite (add_exact ln o p L NC G PO). split; [reflexivity|]. intros code. cbn [fst].
  set (p' := fold_left do_put _ p). unfold found. cbn [r_tab r_heap].
  change (ln_objs (put_obj NODE_PROFILE_CODE p' (set_ln_node (fst (node_add_object (Some o) (ln_node ln))) ln))) with (zset NODE_PROFILE_CODE p' (zset (o_code o) o (ln_objs ln))).
  destruct (Z.eq_dec code NP) as [->|NN].
  - unfold tab'. rewrite zget_zset_other by (unfold NP; congruence). rewrite Z0. change NODE_PROFILE_CODE with NP. rewrite zget_zset_same, nth_put, Nat.eqb_refl, A0. reflexivity.
  - rewrite (zget_zset_other code NODE_PROFILE_CODE) by (unfold NODE_PROFILE_CODE; unfold NP in NN; congruence). destruct (Z.eq_dec code (o_code o)) as [->|NO].
    + unfold tab'. rewrite !zget_zset_same, nth_put. destruct (Nat.eqb_spec i 0) as [->|]; [|exact E].
      exfalso. rewrite A0 in E. assert (X : o = p) by congruence. apply NC. rewrite X. apply PO.
    + unfold tab'. rewrite !zget_zset_other by congruence. pose proof (found_start ln devs code) as F. fold tab h in F. rewrite <- F. destruct (zget code tab) as [j|] eqn:ZJ; [|reflexivity].
      rewrite nth_put. destruct (Nat.eqb_spec j 0) as [->|]; [|reflexivity]. exfalso. apply NN.
      assert (I : In (code, 0) (node_table ln)) by (apply zget_in; exact ZJ). rewrite <- (proj1 (table_keyed ln devs code 0 W I)). fold h. rewrite R0. apply PO.
Qed.

(** ** One answer, two moments *)
Section Torn.
Context {PS : PySet}.
Lemma np_puts_head codes o : exists rest, np_puts codes o = (0xD3%Z, Ok (says 0xD3 codes)) :: rest.
Proof. unfold np_puts. rewrite instance_loop, class_loop, from_int_n_be. eexists. reflexivity. Qed.
Lemma read_five o c : profile_ok o -> In c five -> forall d, get_property_data c o = Some d -> do_read o (mkprop c []) = (o, Ok (mkprop c d, true)).
Proof.
  intros P F d G. rewrite do_read_builtin; [|left; apply P|exact (profile_wf _ P)]. unfold read_answer, get_property_data, get_property in *. cbn [p_code].
  destruct (zget c (o_props o)) as [q|] eqn:Q; [|discriminate]. rewrite (profile_readable _ _ q P F Q). cbn [fst snd]. assert (op_data q = d) by congruence. now subst d.
Qed.
Lemma device_snoc l c : is_profile_code c = false -> device_codes (l ++ [c]) = device_codes l ++ [c].
Proof. intros E. unfold device_codes. rewrite filter_app. cbn [filter]. now rewrite E. Qed.
Lemma says_D3 l c : is_profile_code c = false -> says 0xD3 (l ++ [c]) <> says 0xD3 l.
Proof.
  intros E. unfold says. cbn [Z.eqb Pos.eqb]. rewrite (device_snoc l c E). change (be 3 ?v) with [(v / 256 ^ 2) mod 256; (v / 256 ^ 1) mod 256; (v / 256 ^ 0) mod 256]%Z. unfold zlen. rewrite app_length. cbn [length]. intros H.
  assert (Q : ((Z.of_nat (length (device_codes l) + 1) / 256 ^ 0) mod 256 = (Z.of_nat (length (device_codes l)) / 256 ^ 0) mod 256)%Z) by congruence.
  change (256 ^ 0)%Z with 1%Z in Q. rewrite !Z.div_1_r in Q. lia.
Qed.
Lemma says_D5 l c : is_profile_code c = false -> says 0xD5 (l ++ [c]) <> says 0xD5 l.
Proof.
  intros E. unfold says. cbn [Z.eqb Pos.eqb]. rewrite (device_snoc l c E). intros H. apply (f_equal (@length Z)) in H.
  rewrite flat_map_app, !app_length, !be_length in H. cbn [flat_map] in H. rewrite app_nil_r, be_length in H. lia.
Qed.
End Torn.
Definition torn_ask : msg := mkmsg 1 0x05FF01 0x0EF001 0x62 [mkprop 0xD3 []; mkprop 0xD5 []] [] [] None None.
Lemma L_C90_torn_refuted : forall (PS : PySet) c r s0 ops o, new_local c r = (s0, Ok tt) -> no_profile ops ->
  let ln := fst (local_adds ops s0) in ~ In (o_code o) (node_codes ln) -> is_profile_code (o_code o) = false ->
  let calls := [CAdd (length (ln_objs ln))] in
  exists sched ans d3 d5, let s := rrun (running ln [o] calls [mkmsg 1 0x05FF01 0x0EF001 0x62 [mkprop 0xD3 []; mkprop 0xD5 []] [] [] None None]) sched in
  nth_error (r_thr s) 1 = Some (TServe 0 (SDone (Ok (Some ans)))) /\ m_ESV ans = 0x72%Z /\ m_props ans = [mkprop 0xD3 d3; mkprop 0xD5 d5] /\
  planned 0xD3 ln [o] calls = Some d3 /\ planned 0xD5 ln [o] [] = Some d5 /\
  forall b, ~ (planned 0xD3 ln [o] (firstn b calls) = Some d3 /\ planned 0xD5 ln [o] (firstn b calls) = Some d5).
Proof.
  intros PS c r s0 ops o N NPr ln NI NC calls. change (mkmsg 1 0x05FF01 0x0EF001 0x62 [mkprop 0xD3 []; mkprop 0xD5 []] [] [] None None) with torn_ask.
  assert (NE : o_code o <> NP) by (intros X; rewrite X in NC; discriminate).
  assert (E : nth_error (node_heap ln [o]) (length (ln_objs ln)) = Some o).
  { unfold node_heap. rewrite nth_error_app2; rewrite map_length; [|lia]. rewrite Nat.sub_diag. reflexivity. }
  assert (A : Forall (legal (node_heap ln [o])) calls) by (constructor; [exists o; auto|constructor]).
  destruct (started_here c r s0 ops [o] calls [torn_ask] N NPr A) as (L & Z0 & H). fold ln in L, Z0, H. cbn zeta in H.
  pose proof L as (_ & W & ND & p & G & PO & SH). destruct H as (_ & _ & _ & PL & _).
  rewrite (lwf_codes ln W) in NI. apply shows_shown in SH.
  assert (P0 : forall code, In code five -> planned code ln [o] [] = Some (says code (dkeys (ln_objs ln)))).
  { intros code F. pose proof (planned_says ln [o] calls 0 code L A F) as Q. cbn [firstn] in Q. rewrite Q. unfold codesk, tabk. cbn [firstn fold_left]. now rewrite table_keys. }
  assert (P1 : forall b code, In code five -> 1 <= b -> planned code ln [o] (firstn b calls) = Some (says code (dkeys (ln_objs ln) ++ [o_code o]))).
  { intros b code F B. pose proof (planned_says ln [o] calls b code L A F) as Q. rewrite Q. unfold codesk, tabk. rewrite firstn_all2 by (cbn; lia). unfold calls. cbn [fold_left add1].
    rewrite (at_ref_some _ _ _ E), zkeys_zset, table_keys. destruct (zget (o_code o) (node_table ln)) eqn:ZG; cbn [isSome]; [|reflexivity].
    exfalso. apply NI. rewrite <- table_keys. apply zget_some. eauto. }
  assert (A0 : nth_error (node_heap ln [o]) 0 = Some p) by (pose proof (found_start ln [o] NP) as F; rewrite Z0, G in F; exact F).
  set (h := node_heap ln [o]) in *. pose proof (at_ref_some _ _ _ A0) as R0. pose proof (at_ref_some _ _ _ E) as Ri.
  set (tab := node_table ln) in *. set (i := length (ln_objs ln)) in *. set (tab' := zset (o_code o) i tab).
  assert (KC : map (fun j => o_code (at_ref h j)) (map snd tab') = dkeys (ln_objs ln) ++ [o_code o]).
  { transitivity (dkeys tab').
    - unfold dkeys. rewrite map_map. apply map_ext_in. intros [k j] I. cbn [fst snd].
      apply (in_dset Z.eqb) in I. destruct I as [I|[I|(a & Ha & I)]].
      + assert (k = o_code o /\ j = i) as (-> & ->) by (split; congruence). now rewrite Ri.
      + exact (proj1 (table_keyed ln [o] k j W I)).
      + apply Z.eqb_eq in Ha. assert (k = o_code o /\ j = i) as (-> & ->) by (split; congruence). now rewrite Ri.
    - unfold tab'. rewrite zkeys_zset. unfold tab. rewrite table_keys. destruct (zget (o_code o) (node_table ln)) eqn:ZG; cbn [isSome]; [|reflexivity].
      exfalso. apply NI. rewrite <- table_keys. apply zget_some. eauto. }
  set (C1 := dkeys (ln_objs ln) ++ [o_code o]) in *. set (C0 := dkeys (ln_objs ln)) in *.
  destruct (np_puts_head C1 p) as (rest & HD). set (p1 := store 0xD3 (says 0xD3 C1) p).
  assert (PO1 : profile_ok p1) by now apply profile_ok_data.
  assert (D3 : get_property_data 0xD3 p1 = Some (says 0xD3 C1)).
  { unfold p1, store. rewrite get_data_set, (SH 0xD3%Z) by (cbn; tauto). rewrite Z.eqb_refl. reflexivity. }
  assert (D5 : get_property_data 0xD5 p1 = Some (says 0xD5 C0)).
  { unfold p1, store. rewrite get_data_set, (SH 0xD5%Z) by (cbn; tauto). reflexivity. }
  exists (repeat 0 (3 + length tab') ++ [0; 1; 1; 1; 1; 1]), (mkmsg 1 0x0EF001 0x05FF01 0x72 [mkprop 0xD3 (says 0xD3 C1); mkprop 0xD5 (says 0xD5 C0)] [] [] None None), (says 0xD3 C1), (says 0xD5 C0).
  cbn zeta. rewrite rrun_app. unfold running, calls. fold h tab.
  pose proof (to_puts h tab 0 [] i (map TReq [torn_ask]) []) as TP. cbn zeta in TP. rewrite Ri in TP. fold tab' in TP. rewrite TP, KC, R0, HD. clear TP.
  assert (Z1 : zget NP tab' = Some 0) by (unfold tab'; rewrite zget_zset_other by congruence; exact Z0).
  assert (HP : has_property 0xD3 p = true) by (apply profile_has; [exact PO|cbn; tauto]).
  split; [|split; [reflexivity|split; [reflexivity|split; [apply (P1 1); [cbn; tauto|lia]|split; [apply P0; cbn; tauto|]]]]].
  - cbn [map]. unfold rrun. cbn [fold_left].
    set (st := mkrst h tab' 0 _). assert (S1 : rstep st 0 = mkrst (put h 0 p1) tab' 0 [TUser [] (UPuts rest) []; TReq torn_ask]).
    { unfold rstep, st. cbn [r_thr nth_error r_heap r_tab r_prof estep]. rewrite R0, HP. reflexivity. }
    rewrite S1. clear S1 st. set (h1 := put h 0 p1).
    assert (AP : at_ref h1 0 = p1) by (unfold h1; rewrite at_put by exact PL; reflexivity). assert (PP : put h1 0 p1 = h1) by (unfold h1; apply put_put).
    assert (HS : o_handler p1 = HSuper) by apply PO1. assert (KO : o_code (new_object (PInt (m_DEOJ torn_ask))) = NP) by reflexivity.
    unfold rstep at 5. cbn [r_thr nth_error r_heap r_tab r_prof estep]. rewrite KO, Z1, AP. cbn [pstep]. change (negb (is_request (m_ESV torn_ask))) with false. cbv iota. rewrite HS.
    change (is_write_read_request (m_ESV torn_ask)) with false. cbv iota. rewrite PP. cbn [put].
    change (m_props torn_ask) with [mkprop 0xD3 []; mkprop 0xD5 []].
    unfold rstep at 4. cbn [r_thr nth_error r_heap r_tab r_prof estep]. rewrite AP. cbn [pstep]. change (do_plain (m_ESV torn_ask)) with do_read. rewrite (read_five p1 0xD3 PO1 ltac:(cbn; tauto) _ D3). cbv iota. rewrite PP. cbn [put app].
    unfold rstep at 3. cbn [r_thr nth_error r_heap r_tab r_prof estep]. rewrite AP. cbn [pstep]. change (do_plain (m_ESV torn_ask)) with do_read. rewrite (read_five p1 0xD5 PO1 ltac:(cbn; tauto) _ D5). cbv iota. rewrite PP. cbn [put app].
    unfold rstep at 2. cbn [r_thr nth_error r_heap r_tab r_prof estep]. rewrite AP. cbn [pstep]. rewrite PP. cbn [put].
    unfold rstep at 1. cbn [r_thr nth_error r_heap r_tab r_prof estep pstep put]. reflexivity.
  - intros [|b] (X1 & X2).
    + cbn [firstn] in X1. rewrite P0 in X1 by (cbn; tauto). apply (says_D3 C0 (o_code o) NC). fold C1. congruence.
    + rewrite (P1 (S b)) in X2 by (cbn; tauto || lia). apply (says_D5 C0 (o_code o) NC). fold C1. congruence.
Qed.

(** ** Which objects are found *)
Lemma tabk_last {PS : PySet} h0 tab0 calls b j i : nth_error calls j = Some (CAdd i) -> j < b ->
  (forall k i', j < k < b -> nth_error calls k = Some (CAdd i') -> o_code (at_ref h0 i') <> o_code (at_ref h0 i)) ->
  zget (o_code (at_ref h0 i)) (tabk h0 tab0 calls b) = Some i.
Proof.
  intros E. induction b as [|b IH]; intros L N; [lia|]. destruct (nth_error calls b) as [c|] eqn:B.
  - rewrite (tabk_S _ _ _ _ _ B). destruct (Nat.eq_dec j b) as [<-|NE].
    + assert (c = CAdd i) by congruence. subst c. cbn [add1]. apply zget_zset_same.
    + destruct c as [i'|i' k d]; cbn [add1].
      * rewrite zget_zset_other; [|intros X; symmetry in X; revert X; apply (N b i'); [lia|exact B]]. apply IH; [lia|]. intros k i1 K1 K2. apply (N k i1); [lia|exact K2].
      * apply IH; [lia|]. intros k0 i1 K1 K2. apply (N k0 i1); [lia|exact K2].
  - assert (T : tabk h0 tab0 calls (S b) = tabk h0 tab0 calls b) by (unfold tabk; apply nth_error_None in B; rewrite !firstn_all2 by lia; reflexivity).
    rewrite T. apply IH; [|intros k i' K1 K2; apply (N k i'); [lia|exact K2]]. assert (j <> b) by congruence. lia.
Qed.
Lemma L_C90_lookup : forall (PS : PySet) c r s0 ops devs calls reqs sched, new_local c r = (s0, Ok tt) -> no_profile ops ->
  let ln := fst (local_adds ops s0) in let h := node_heap ln devs in Forall (legal h) calls ->
  let s := rrun (running ln devs calls reqs) sched in
  dkeys (r_tab s) = node_codes (fst (local_adds (adds_of h (firstn (begun calls s) calls)) ln)) /\
  (forall code, In code (dkeys (r_tab s)) -> exists o, found code s = Some o /\ o_code o = code) /\
  forall j i o, nth_error calls j = Some (CAdd i) -> nth_error h i = Some o -> j < begun calls s ->
    (forall k i' o', j < k < begun calls s -> nth_error calls k = Some (CAdd i') -> nth_error h i' = Some o' -> o_code o' <> o_code o) ->
    zget (o_code o) (r_tab s) = Some i.
Proof.
  intros PS c r s0 ops devs calls reqs sched N NPr ln h A s. destruct (started_here c r s0 ops devs calls reqs N NPr A) as (L & Z0 & H). fold ln in L, Z0, H.
  assert (K : forall k i, In (k, i) (node_table ln) -> o_code (at_ref h i) = k) by (intros k i' I; exact (proj1 (table_keyed ln devs k i' (proj1 (proj2 L)) I))).
  pose proof (here_run _ _ _ K A _ sched H) as H'. fold s in H'. destruct (user_bounds _ _ _ _ H') as (b & B1 & B2 & _ & B4 & _). fold h in B4. rewrite B1, B4.
  destruct (codesk_planned ln devs calls b L A) as (I1 & I2). fold h in I1, I2. destruct H' as (_ & HC & _ & _ & _).
  split; [unfold codesk in I2; rewrite I2; symmetry; apply lwf_codes; apply I1|]. split.
  - intros code I. apply zget_some in I. destruct I as (i & I). unfold found. rewrite B4, I.
    pose proof (zget_in _ _ _ I) as IN. pose proof (tabk_keyed h (node_table ln) calls K b code i IN) as KC.
    assert (LI : i < length (r_heap s)).
    { rewrite (codes_len _ _ HC). fold h. unfold tabk in IN. revert IN. assert (A' : Forall (legal h) (firstn b calls)) by (apply Forall_forall; intros x X; rewrite Forall_forall in A; apply A; rewrite <- (firstn_skipn b calls); apply in_app_iff; now left).
      revert A'. generalize (firstn b calls). clear -L. intros l. revert code. induction l as [|x l IH] using rev_ind; intros code A' IN; [exact (proj2 (table_keyed ln devs code i (proj1 (proj2 L)) IN))|].
      apply Forall_app in A'. destruct A' as (A1 & A2). rewrite fold_left_app in IN. cbn [fold_left] in IN. inversion A2 as [|y z A3 _]; subst y z.
      destruct x as [j|j k d]; cbn [add1] in IN; [|exact (IH code A1 IN)]. destruct A3 as (o & E & _).
      apply (in_dset Z.eqb) in IN. destruct IN as [IN|[IN|(a & Ha & IN)]]; [|exact (IH code A1 IN)|]; assert (i = j) by congruence; subst i; apply nth_error_Some; congruence. }
    rewrite (nth_error_nth' _ nobody LI). eexists. split; [reflexivity|]. fold (at_ref (r_heap s) i). rewrite (code_at _ _ i HC). exact KC.
  - intros j i o J I LT NN. rewrite <- (at_ref_some _ _ _ I). apply (tabk_last h (node_table ln) calls b j i J LT). intros k i' K1 K2 E.
    assert (LG : legal h (CAdd i')) by (rewrite Forall_forall in A; apply A; exact (nth_error_In _ _ K2)). destruct LG as (o' & I' & _).
    apply (NN k i' o' K1 K2 I'). rewrite (at_ref_some _ _ _ I), (at_ref_some _ _ _ I') in E. exact E.
Qed.

(** ** Several threads of the user *)
Lemma skipn_at {A} (l : list A) b x r : skipn b l = x :: r -> nth_error l b = Some x /\ skipn (S b) l = r /\ S b <= length l.
Proof.
  revert b. induction l as [|y l IH]; intros [|b] E; cbn in E; try discriminate.
  - inversion E; subst. cbn. repeat split. lia.
  - destruct (IH b E) as (H1 & H2 & H3). cbn [nth_error length]. split; [exact H1|]. split; [exact H2|lia].
Qed.
Section Many.
Context {PS : PySet}.
Variables (h0 : list obj) (tab0 : list (Z * nat)) (callss : list (list ucall)).
Definition todo_of (t : thr) : nat := match t with TUser todo _ _ => length todo | _ => 0 end.
Fixpoint total (ths : list thr) : nat := match ths with [] => 0 | t :: r => todo_of t + total r end.
Lemma total_put ths u t t' : nth_error ths u = Some t -> total (put ths u t') + todo_of t = total ths + todo_of t'.
Proof.
  revert u. induction ths as [|x ths IH]; intros [|u] E; cbn in E; try discriminate.
  - assert (x = t) by congruence. subst x. cbn [put total]. lia.
  - cbn [put total]. specialize (IH u E). lia.
Qed.
Definition mouts (calls : list ucall) (outs : list ures) : Prop :=
  forall j r, nth_error outs j = Some r -> match nth_error calls j with
    | Some (CAdd _) => r = UBool true \/ r = UChanged
    | Some (CSet i c _) => exists x, r = UBool x
    | None => False end.
Lemma mouts_snoc calls outs r : mouts calls outs -> match nth_error calls (length outs) with
    | Some (CAdd _) => r = UBool true \/ r = UChanged | Some (CSet i c _) => exists x, r = UBool x | None => False end -> mouts calls (outs ++ [r]).
Proof.
  intros O H j x E. destruct (Nat.lt_ge_cases j (length outs)) as [L|L].
  - rewrite nth_error_app1 in E by exact L. exact (O j x E).
  - rewrite nth_error_app2 in E by exact L. destruct (j - length outs) as [|k] eqn:D; [|destruct k; discriminate].
    cbn in E. assert (x = r) by congruence. subst x. replace j with (length outs) by lia. exact H.
Qed.
Definition muser (tab : list (Z * nat)) (calls : list ucall) (todo : list ucall) (p : upc) (outs : list ures) : Prop :=
  exists b, todo = skipn b calls /\ b <= length calls /\ mouts calls outs /\
  (forall j i, j < b -> nth_error calls j = Some (CAdd i) -> In (o_code (at_ref h0 i)) (dkeys tab)) /\
  match p with
  | UNext => length outs = b
  | UPuts puts => (S (length outs) = b /\ exists i, nth_error calls (length outs) = Some (CAdd i)) /\ forall c d, In (c, d) puts -> In c np_codes /\ exists x, d = Ok x
  | _ => S (length outs) = b /\ exists i, nth_error calls (length outs) = Some (CAdd i)
  end.
Definition mthread (tab : list (Z * nat)) (u : nat) (x : option thr) : Prop :=
  match x with
  | Some (TUser todo p outs) => exists calls, nth_error callss u = Some calls /\ muser tab calls todo p outs
  | _ => nth_error callss u = None
  end.
Lemma mthread_mono tab tab' u x : (forall k, In k (dkeys tab) -> In k (dkeys tab')) -> mthread tab u x -> mthread tab' u x.
Proof.
  intros K. destruct x as [[todo p outs| | |]|]; try (exact (fun H => H)). intros (calls & C & b & A1 & A2 & A3 & A4 & A5). exists calls. split; [exact C|].
  exists b. split; [exact A1|]. split; [exact A2|]. split; [exact A3|]. split; [|exact A5]. intros j i J I. apply K. exact (A4 j i J I).
Qed.
Definition B0 : nat := length tab0 + length (concat callss).
Definition many (s : rst) : Prop :=
  r_prof s = 0 /\ map o_code (r_heap s) = map o_code h0 /\ profile_ok (at_ref (r_heap s) 0) /\ 0 < length h0 /\
  zget NP (r_tab s) = Some 0 /\ (forall c i, In (c, i) (r_tab s) -> o_code (at_ref h0 i) = c /\ i < length h0) /\
  (forall k, In k (dkeys tab0) -> In k (dkeys (r_tab s))) /\ length (r_tab s) + total (r_thr s) <= B0 /\
  forall u, mthread (r_tab s) u (nth_error (r_thr s) u).
Hypothesis all_legal : Forall (Forall (legal h0)) callss.
Lemma zset_len (tab : list (Z * nat)) k i : length (zset k i tab) <= S (length tab).
Proof.
  assert (DL : forall d : list (Z * nat), length (dkeys d) = length d) by (intros d; apply map_length).
  rewrite <- (DL (zset _ _ _)), <- (DL tab), zkeys_zset. destruct (zget k tab); cbn [isSome]; rewrite ?app_length; cbn [length]; lia.
Qed.
Lemma zset_keys (tab : list (Z * nat)) k i : In k (dkeys (zset k i tab)) /\ forall k', In k' (dkeys tab) -> In k' (dkeys (zset k i tab)).
Proof.
  split; [apply zget_some; exists i; apply zget_zset_same|]. intros k' I. destruct (Z.eq_dec k' k) as [->|N]; [apply zget_some; exists i; apply zget_zset_same|].
  apply zget_some in I. destruct I as (v & I). apply zget_some. exists v. now rewrite zget_zset_other.
Qed.
Lemma many_step s u : many s -> many (rstep s u).
Proof.
  intros (HP & HC & PO & PL & Z0 & TK & TB & TL & TH). pose proof (codes_len _ _ HC) as LEN.
  destruct (nth_error (r_thr s) u) as [t|] eqn:T; [|rewrite (rstep_none _ _ T); unfold many; auto 20].
  assert (G : forall h tab t', estep (r_heap s) (r_tab s) (r_prof s) t = (h, tab, t') -> map o_code h = map o_code h0 -> profile_ok (at_ref h 0) ->
    zget NP tab = Some 0 -> (forall c i, In (c, i) tab -> o_code (at_ref h0 i) = c /\ i < length h0) -> (forall k, In k (dkeys (r_tab s)) -> In k (dkeys tab)) ->
    length tab + todo_of t' <= length (r_tab s) + todo_of t -> mthread tab u (Some t') -> many (rstep s u)).
  { intros h tab t' X1 X2 X3 X4 X5 X6 X7 X8. rewrite (rstep_at _ _ _ _ _ _ T X1). unfold many. cbn [r_prof r_heap r_tab r_thr].
    split; [exact HP|]. split; [exact X2|]. split; [exact X3|]. split; [exact PL|]. split; [exact X4|]. split; [exact X5|]. split; [intros k K; apply X6; now apply TB|].
    split; [pose proof (total_put (r_thr s) u t t' T); lia|]. intros v. rewrite nth_put. destruct (Nat.eqb_spec v u) as [->|N]; [rewrite T; exact X8|].
    exact (mthread_mono _ _ _ _ X6 (TH v)). }
  specialize (TH u). rewrite T in TH.
  assert (GP : forall j p, estep (r_heap s) (r_tab s) (r_prof s) t = (put (r_heap s) j (fst (pstep (at_ref (r_heap s) j) p)), r_tab s, TServe j (snd (pstep (at_ref (r_heap s) j) p))) -> nth_error callss u = None -> many (rstep s u)).
  { intros j p X NC. destruct (Nat.lt_ge_cases j (length (r_heap s))) as [L|L].
    - apply (G _ _ _ X); auto; [apply put_codes; [exact HC|apply pstep_code]| |cbn; lia].
      rewrite at_put by exact L. destruct (Nat.eqb_spec 0 j) as [<-|]; [now apply pstep_prof|exact PO].
    - assert (EP : forall o, put (r_heap s) j o = r_heap s).
      { intros o. clear -L. revert j L. generalize (r_heap s). intros h. induction h as [|x h IH]; intros [|j] L; cbn in *; try reflexivity; [lia|]. f_equal. apply IH. lia. }
      rewrite EP in X. apply (G _ _ _ X); auto. cbn. lia. }
  destruct t as [todo pc outs|req|j p|].
  - destruct TH as (calls & CE & b & A1 & A2 & A3 & A4 & A5).
    assert (LG : forall c, In c calls -> legal h0 c) by (intros c I; rewrite Forall_forall in all_legal; pose proof (all_legal _ (nth_error_In _ _ CE)) as F; rewrite Forall_forall in F; exact (F c I)).
    destruct pc as [| |used pos objs|puts].
    + destruct todo as [|[j|j c d] todo].
      * apply (G (r_heap s) (r_tab s) (TUser [] UNext outs)); auto. exists calls. split; [exact CE|]. exists b. auto.
      * symmetry in A1. destruct (skipn_at _ _ _ _ A1) as (K1 & K2 & K3). pose proof (LG _ (nth_error_In _ _ K1)) as (o & EO & NO).
        assert (EK : o_code (at_ref (r_heap s) j) = o_code (at_ref h0 j)) by exact (code_at _ _ j HC).
        apply (G (r_heap s) (zset (o_code (at_ref (r_heap s) j)) j (r_tab s)) (TUser todo UIter outs)); auto.
        -- rewrite zget_zset_other; [exact Z0|]. rewrite EK, (at_ref_some _ _ _ EO). unfold NP. congruence.
        -- intros c i I. apply (in_dset Z.eqb) in I. destruct I as [I|[I|(a & Ha & I)]]; [|now apply TK|].
           ++ assert (c = o_code (at_ref (r_heap s) j) /\ i = j) as (-> & ->) by (split; congruence). split; [congruence|exact (nth_pos _ _ _ EO)].
           ++ apply Z.eqb_eq in Ha. assert (c = o_code (at_ref (r_heap s) j) /\ i = j) as (-> & ->) by (split; congruence). split; [congruence|exact (nth_pos _ _ _ EO)].
        -- intros k I. exact (proj2 (zset_keys _ _ _) k I).
        -- cbn [todo_of length]. pose proof (zset_len (r_tab s) (o_code (at_ref (r_heap s) j)) j). lia.
        -- exists calls. split; [exact CE|]. exists (S b). split; [congruence|]. split; [exact K3|]. split; [exact A3|]. split; [|split; [lia|exists j; now rewrite A5]].
           intros j' i' J I. destruct (Nat.eq_dec j' b) as [->|NE]; [|apply (proj2 (zset_keys _ _ _)); apply (A4 j' i'); [lia|exact I]].
           assert (i' = j) by congruence. subst i'. rewrite <- EK. exact (proj1 (zset_keys _ _ _)).
      * symmetry in A1. destruct (skipn_at _ _ _ _ A1) as (K1 & K2 & K3). pose proof (LG _ (nth_error_In _ _ K1)) as (LJ & LF).
        cbn [estep] in G. destruct (set_property_data c d (at_ref (r_heap s) j)) as [o r] eqn:D.
        assert (EO : o = fst (set_property_data c d (at_ref (r_heap s) j))) by now rewrite D.
        apply (G (put (r_heap s) j o) (r_tab s) (TUser todo UNext (outs ++ [UBool r]))); auto.
        -- apply put_codes; [exact HC|]. rewrite EO. apply data_code.
        -- rewrite at_put by lia. destruct (Nat.eqb_spec 0 j) as [J|J]; [|exact PO]. subst j. rewrite EO. now apply profile_ok_data.
        -- cbn [todo_of length]. lia.
        -- exists calls. split; [exact CE|]. exists (S b). split; [congruence|]. split; [exact K3|]. split; [apply mouts_snoc; [exact A3|]; rewrite A5, K1; eauto|]. split; [|rewrite app_length; cbn; lia].
           intros j' i' J I. destruct (Nat.eq_dec j' b) as [->|NE]; [congruence|apply (A4 j' i'); [lia|exact I]].
    + apply (G (r_heap s) (r_tab s) (TUser todo (URound (length (r_tab s)) 0 []) outs)); auto. exists calls. split; [exact CE|]. exists b. auto.
    + cbn [estep] in G. destruct (negb (Nat.eqb (length (r_tab s)) used)).
      * apply (G (r_heap s) (r_tab s) (TUser todo UNext (outs ++ [UChanged]))); auto. exists calls. split; [exact CE|]. exists b. split; [exact A1|]. split; [exact A2|]. destruct A5 as (L5 & i & A5).
        split; [apply mouts_snoc; [exact A3|]; rewrite A5; now right|]. split; [exact A4|]. rewrite app_length. cbn. lia.
      * destruct (nth_error (r_tab s) pos) as [[c j]|].
        -- apply (G (r_heap s) (r_tab s) (TUser todo (URound used (S pos) (objs ++ [j])) outs)); auto. exists calls. split; [exact CE|]. exists b. auto.
        -- eapply G; [reflexivity|exact HC|exact PO|exact Z0|exact TK|auto|cbn; lia|]. exists calls. split; [exact CE|]. exists b. split; [exact A1|]. split; [exact A2|]. split; [exact A3|]. split; [exact A4|]. split; [exact A5|].
           rewrite HP. intros c d I. destruct (np_puts_fine (map (fun i => o_code (at_ref (r_heap s) i)) objs) (at_ref (r_heap s) 0) PO) as ((_ & F) & _). destruct (F c d I) as (F1 & x & F2 & _). eauto.
    + cbn [estep] in G. destruct A5 as ((L5 & i & A5) & A6). destruct puts as [|[c d] puts].
      * apply (G (r_heap s) (r_tab s) (TUser todo UNext (outs ++ [UBool true]))); auto. exists calls. split; [exact CE|]. exists b. split; [exact A1|]. split; [exact A2|].
        split; [apply mouts_snoc; [exact A3|]; rewrite A5; now left|]. split; [exact A4|]. rewrite app_length. cbn. lia.
      * destruct (A6 c d) as (F1 & x & ->); [now left|]. rewrite HP, (profile_has _ _ PO F1) in G. cbn [negb] in G.
        apply (G (put (r_heap s) 0 (store c x (at_ref (r_heap s) 0))) (r_tab s) (TUser todo (UPuts puts) outs)); auto.
        -- apply put_codes; [exact HC|]. apply data_code.
        -- rewrite at_put by lia. cbn [Nat.eqb]. now apply profile_ok_data.
        -- exists calls. split; [exact CE|]. exists b. split; [exact A1|]. split; [exact A2|]. split; [exact A3|]. split; [exact A4|]. split; [split; [exact L5|eauto]|]. intros c' d' I. apply A6. now right.
  - cbn [mthread] in TH. destruct (zget (m_DEOJ req) (r_tab s)) as [j|] eqn:Z1.
    + apply (GP j (SBegin req)); [|exact TH]. cbn [estep]. rewrite key_of, Z1. destruct (pstep _ _); reflexivity.
    + apply (G (r_heap s) (r_tab s) TNone); auto. cbn [estep]. rewrite key_of, Z1. reflexivity.
  - apply (GP j p); [|exact TH]. cbn [estep]. destruct (pstep _ _); reflexivity.
  - apply (G (r_heap s) (r_tab s) TNone); auto.
Qed.
Lemma many_run s sched : many s -> many (rrun s sched).
Proof. revert s. induction sched as [|i sched IH]; intros s H; [exact H|]. apply (IH (rstep s i)). now apply many_step. Qed.
End Many.
Lemma total_reqs reqs : total (map TReq reqs) = 0.
Proof. induction reqs as [|m reqs IH]; [reflexivity|exact IH]. Qed.
Lemma total_users callss : total (map (fun calls => TUser calls UNext []) callss) = length (concat callss).
Proof. induction callss as [|l r IH]; [reflexivity|]. cbn [map total todo_of concat]. rewrite app_length. lia. Qed.
Lemma total_app a b : total (a ++ b) = total a + total b.
Proof. induction a as [|x a IH]; [reflexivity|]. cbn [app total]. lia. Qed.
Lemma many_start {PS : PySet} c r s0 ops devs callss reqs : new_local c r = (s0, Ok tt) -> no_profile ops -> let ln := fst (local_adds ops s0) in
  linv ln /\ many (node_heap ln devs) (node_table ln) callss (together ln devs callss reqs).
Proof.
  intros N NPr ln. destruct (started_here c r s0 ops devs [] reqs N NPr (Forall_nil _)) as (L & Z0 & H). fold ln in L, Z0, H. split; [exact L|].
  destruct H as (_ & _ & PO & PL & _). cbn [running r_heap] in PO. unfold many, together. cbn [r_prof r_heap r_tab r_thr].
  split; [reflexivity|]. split; [reflexivity|]. split; [exact PO|]. split; [exact PL|]. split; [exact Z0|]. split; [intros k i I; exact (table_keyed ln devs k i (proj1 (proj2 L)) I)|].
  split; [auto|]. split; [rewrite total_app, total_users, total_reqs; unfold B0; lia|].
  intros u. destruct (nth_error callss u) as [calls|] eqn:E.
  - rewrite nth_error_app1 by (rewrite map_length; apply nth_error_Some; congruence). rewrite nth_error_map, E. cbn [option_map mthread]. exists calls. split; [exact E|]. exists 0.
    split; [reflexivity|]. split; [lia|]. split; [intros j x J; destruct j; discriminate|]. split; [intros j i J; lia|reflexivity].
  - pose proof E as LE. apply nth_error_None in LE. rewrite nth_error_app2 by (rewrite map_length; exact LE). rewrite nth_error_map. destruct (nth_error reqs _); exact E.
Qed.
Lemma many_all {PS : PySet} c r s0 ops devs callss reqs sched : new_local c r = (s0, Ok tt) -> no_profile ops -> let ln := fst (local_adds ops s0) in
  Forall (Forall (legal (node_heap ln devs))) callss -> many (node_heap ln devs) (node_table ln) callss (rrun (together ln devs callss reqs) sched).
Proof. intros N NPr ln A. apply many_run; [exact A|]. exact (proj2 (many_start c r s0 ops devs callss reqs N NPr)). Qed.
Lemma L_C91_kept : forall (PS : PySet) c r s0 ops devs callss reqs sched u calls j i o, new_local c r = (s0, Ok tt) -> no_profile ops ->
  let ln := fst (local_adds ops s0) in Forall (Forall (legal (node_heap ln devs))) callss ->
  let s := rrun (together ln devs callss reqs) sched in
  nth_error callss u = Some calls -> nth_error calls j = Some (CAdd i) -> nth_error (node_heap ln devs) i = Some o -> j < begun_of u callss s ->
  exists o', found (o_code o) s = Some o' /\ o_code o' = o_code o.
Proof.
  intros PS c r s0 ops devs callss reqs sched u calls j i o N NPr ln A s CU CJ E LT.
  destruct (many_all c r s0 ops devs callss reqs sched N NPr A) as (HP & HC & PO & PL & Z0 & TK & TB & TL & TH). fold ln s in HC, TK, TH. specialize (TH u).
  unfold begun_of in LT. rewrite CU in LT. destruct (nth_error (r_thr s) u) as [[todo p outs| | |]|]; try lia. destruct TH as (calls' & CE & b & A1 & A2 & A3 & A4 & A5).
  assert (calls' = calls) by congruence. subst calls' todo. rewrite skipn_length in LT.
  assert (I : In (o_code (at_ref (node_heap ln devs) i)) (dkeys (r_tab s))) by (apply (A4 j i); [lia|exact CJ]). rewrite (at_ref_some _ _ _ E) in I.
  apply zget_some in I. destruct I as (k & I). unfold found. rewrite I. apply zget_in in I. destruct (TK _ _ I) as (T1 & T2).
  rewrite (nth_error_nth' (r_heap s) nobody) by (rewrite (codes_len _ _ HC); exact T2). eexists. split; [reflexivity|]. fold (at_ref (r_heap s) k). now rewrite (code_at _ _ k HC).
Qed.
Lemma L_C91_results : forall (PS : PySet) c r s0 ops devs callss reqs sched u calls j x, new_local c r = (s0, Ok tt) -> no_profile ops ->
  let ln := fst (local_adds ops s0) in Forall (Forall (legal (node_heap ln devs))) callss ->
  let s := rrun (together ln devs callss reqs) sched in
  nth_error callss u = Some calls -> nth_error (results_of u s) j = Some x ->
  match nth_error calls j with
  | Some (CAdd _) => x = UBool true \/ x = UChanged
  | Some (CSet _ _ _) => exists b, x = UBool b
  | None => False
  end.
Proof.
  intros PS c r s0 ops devs callss reqs sched u calls j x N NPr ln A s CU X.
  destruct (many_all c r s0 ops devs callss reqs sched N NPr A) as (_ & _ & _ & _ & _ & _ & _ & _ & TH). fold ln s in TH. specialize (TH u). unfold results_of in X.
  destruct (nth_error (r_thr s) u) as [[todo p outs| | |]|]; try (destruct j; discriminate X). destruct TH as (calls' & CE & b & A1 & A2 & A3 & _).
  assert (calls' = calls) by congruence. subst calls'. exact (A3 j x X).
Qed.
Definition uleft (B : nat) (u : nat) (s : rst) : nat :=
  match nth_error (r_thr s) u with Some (TUser todo p _) => length todo * (B + 12) + upot B p | _ => 0 end.
Lemma uleft_step {PS : PySet} h0 tab0 callss s u i : many h0 tab0 callss s -> let B := length tab0 + length (concat callss) in
  uleft B u (rstep s i) <= uleft B u s - (if Nat.eqb i u then 1 else 0).
Proof.
  intros (HP & HC & PO & PL & Z0 & TK & TB & TL & TH) B. change (B0 tab0 callss) with B in TL.
  destruct (nth_error (r_thr s) i) as [t|] eqn:T.
  2:{ rewrite (rstep_none _ _ T). destruct (Nat.eqb_spec i u); [subst; unfold uleft; rewrite T; lia|lia]. }
  destruct (estep (r_heap s) (r_tab s) (r_prof s) t) as [[h tab] t'] eqn:X. rewrite (rstep_at _ _ _ _ _ _ T X). unfold uleft. cbn [r_thr]. rewrite nth_put, (Nat.eqb_sym u i).
  destruct (Nat.eqb_spec i u) as [->|NE]; [|lia]. rewrite T.
  destruct t as [todo pc outs|req|j p|]; [|cbn [estep] in X; rewrite key_of in X; destruct (zget (m_DEOJ req) (r_tab s)); [destruct (pstep _ _)|]; inversion X; subst; lia|cbn [estep] in X; destruct (pstep _ _); inversion X; subst; lia|inversion X; subst; lia].
  destruct pc as [| |used pos objs|puts]; cbn [estep] in X.
  - destruct todo as [|[j|j c d] todo]; [inversion X; subst; cbn; lia|inversion X; subst; cbn [upot length]; lia|].
    destruct (set_property_data _ _ _). inversion X; subst. cbn [upot length]. lia.
  - inversion X; subst. cbn [upot]. lia.
  - destruct (negb _); [inversion X; subst; cbn [upot]; lia|]. destruct (nth_error (r_tab s) pos) as [[c j]|] eqn:N.
    + inversion X; subst. apply nth_pos in N. cbn [upot]. lia.
    + inversion X; subst. cbn [upot]. rewrite np_puts_len. lia.
  - destruct puts as [|[c d] puts]; [inversion X; subst; cbn [upot length]; lia|].
    destruct (negb _); [inversion X; subst; cbn [upot length]; lia|]. destruct d; inversion X; subst; cbn [upot length]; lia.
Qed.
Lemma uleft_run {PS : PySet} h0 tab0 callss u sched : Forall (Forall (legal h0)) callss ->
  forall s, many h0 tab0 callss s -> let B := length tab0 + length (concat callss) in uleft B u (rrun s sched) <= uleft B u s - steps_of u sched.
Proof.
  intros A. induction sched as [|i sched IH]; intros s H B; [cbn; lia|].
  change (rrun s (i :: sched)) with (rrun (rstep s i) sched). pose proof (uleft_step h0 tab0 callss s u i H) as L. fold B in L. specialize (IH (rstep s i) (many_step _ _ _ A s i H)). fold B in IH. cbn zeta in IH, L.
  unfold steps_of in *. cbn [count_occ]. destruct (Nat.eq_dec i u) as [->|N]; [rewrite Nat.eqb_refl in L; lia|]. destruct (Nat.eqb_spec i u); [congruence|]. lia.
Qed.
Lemma L_C91_ends : forall (PS : PySet) c r s0 ops devs callss reqs sched u calls, new_local c r = (s0, Ok tt) -> no_profile ops ->
  let ln := fst (local_adds ops s0) in Forall (Forall (legal (node_heap ln devs))) callss -> nth_error callss u = Some calls ->
  length calls * (length (node_table ln) + length (concat callss) + 12) <= steps_of u sched ->
  length (results_of u (rrun (together ln devs callss reqs) sched)) = length calls.
Proof.
  intros PS c r s0 ops devs callss reqs sched u calls N NPr ln A CU ST. set (s := rrun _ sched).
  pose proof (many_all c r s0 ops devs callss reqs sched N NPr A) as M. fold ln s in M.
  pose proof (uleft_run _ _ _ u sched A _ (proj2 (many_start c r s0 ops devs callss reqs N NPr))) as LF. cbn zeta in LF. fold ln s in LF.
  destruct M as (_ & _ & _ & _ & _ & _ & _ & _ & TH). specialize (TH u).
  unfold uleft at 2 in LF. cbn [together r_thr] in LF. rewrite nth_error_app1 in LF by (rewrite map_length; apply nth_error_Some; congruence). rewrite nth_error_map, CU in LF. cbn [option_map upot] in LF.
  assert (Z1 : uleft (length (node_table ln) + length (concat callss)) u s = 0) by lia. clear LF. unfold uleft in Z1. unfold results_of.
  destruct (nth_error (r_thr s) u) as [[todo p outs| | |]|]; cbn [mthread] in TH; try congruence. destruct TH as (calls' & CE & b & A1 & A2 & A3 & A4 & A5).
  assert (calls' = calls) by congruence. subst calls'. destruct p; cbn [upot] in Z1; try lia. subst todo.
  assert (Q : length (skipn b calls) = 0) by (destruct (skipn b calls); [reflexivity|cbn [length] in Z1; lia]). rewrite skipn_length in Q. lia.
Qed.

(** ** Every value describes the node at some moment *)
Section Moments.
Context {PS : PySet}.
Variables (h0 : list obj) (tab0 : list (Z * nat)) (callss : list (list ucall)) (st : rst).
Hypothesis all_legal : Forall (Forall (legal h0)) callss.
Definition seen (sched : list nat) (K : list Z) : Prop := exists a b, sched = a ++ b /\ K = dkeys (r_tab (rrun st a)).
Lemma seen_snoc sched i K : seen sched K -> seen (sched ++ [i]) K.
Proof. intros (a & b & E & H). exists a, (b ++ [i]). split; [now rewrite E, app_assoc|exact H]. Qed.
Lemma seen_now sched : seen sched (dkeys (r_tab (rrun st sched))).
Proof. exists sched, []. now rewrite app_nil_r. Qed.
Definition pc_seen (sched : list nat) (tab : list (Z * nat)) (p : upc) : Prop :=
  match p with
  | URound used pos objs => pos <= length tab /\ map (fun i => o_code (at_ref h0 i)) objs = firstn pos (dkeys tab)
  | UPuts puts => exists K, seen sched K /\ forall c d, In (c, Ok d) puts -> In c five -> d = says c K
  | _ => True
  end.
Definition five_seen (sched : list nat) (o : obj) : Prop := forall c, In c five -> exists K, seen sched K /\ get_property_data c o = Some (says c K).
Definition moments (sched : list nat) : Prop :=
  five_seen sched (at_ref (r_heap (rrun st sched)) 0) /\
  forall u todo p outs, nth_error (r_thr (rrun st sched)) u = Some (TUser todo p outs) -> pc_seen sched (r_tab (rrun st sched)) p.
Lemma pc_seen_mono sched i tab tab' p : (exists x, dkeys tab' = dkeys tab ++ x) -> pc_seen sched tab p -> pc_seen (sched ++ [i]) tab' p.
Proof.
  intros (x & E). assert (DL : forall d : list (Z * nat), length (dkeys d) = length d) by (intros d; apply map_length).
  destruct p as [| |used pos objs|puts]; cbn [pc_seen]; try (exact (fun H => H)).
  - intros (A & B). split.
    + rewrite <- (DL tab'), E, app_length, DL. lia.
    + rewrite B, E, firstn_app, DL. replace (pos - length tab) with 0 by lia. cbn [firstn]. now rewrite app_nil_r.
  - intros (K & S1 & S2). exists K. split; [now apply seen_snoc|exact S2].
Qed.
Lemma five_mono sched i o o' : same_five o o' -> five_seen sched o -> five_seen (sched ++ [i]) o'.
Proof. intros E H c F. destruct (H c F) as (K & S1 & S2). exists K. split; [now apply seen_snoc|]. rewrite E; assumption. Qed.
Lemma keys_grow (tab : list (Z * nat)) k i : exists x, dkeys (zset k i tab) = dkeys tab ++ x.
Proof. rewrite zkeys_zset. destruct (zget k tab); cbn [isSome]; [exists []; now rewrite app_nil_r|eauto]. Qed.
Lemma moments_step sched u : many h0 tab0 callss (rrun st sched) -> moments sched -> moments (sched ++ [u]).
Proof.
  intros M (F & P). unfold moments. rewrite rrun_app. change (rrun (rrun st sched) [u]) with (rstep (rrun st sched) u).
  assert (NOW : seen (sched ++ [u]) (dkeys (r_tab (rrun st sched)))) by (apply seen_snoc, seen_now).
  set (s := rrun st sched) in *. pose proof M as (HP & HC & PO & PL & Z0 & TK & TB & TL & TH). pose proof (codes_len _ _ HC) as LEN.
  destruct (nth_error (r_thr s) u) as [t|] eqn:T.
  2:{ rewrite (rstep_none _ _ T). split; [apply (five_mono _ _ (at_ref (r_heap s) 0)); [intros c _; reflexivity|exact F]|]. intros v todo p outs V. apply (pc_seen_mono _ _ (r_tab s)); [exists []; now rewrite app_nil_r|exact (P v _ _ _ V)]. }
  assert (G : forall h tab t', estep (r_heap s) (r_tab s) (r_prof s) t = (h, tab, t') -> five_seen (sched ++ [u]) (at_ref h 0) -> (exists x, dkeys tab = dkeys (r_tab s) ++ x) ->
    (forall todo p outs, t' = TUser todo p outs -> pc_seen (sched ++ [u]) tab p) -> five_seen (sched ++ [u]) (at_ref (r_heap (rstep s u)) 0) /\
    forall v todo p outs, nth_error (r_thr (rstep s u)) v = Some (TUser todo p outs) -> pc_seen (sched ++ [u]) (r_tab (rstep s u)) p).
  { intros h tab t' X1 X2 X3 X4. rewrite (rstep_at _ _ _ _ _ _ T X1). cbn [r_heap r_tab r_thr]. split; [exact X2|]. intros v todo p outs V. rewrite nth_put in V.
    destruct (Nat.eqb_spec v u) as [->|N]; [rewrite T in V; apply (X4 todo p outs); congruence|]. apply (pc_seen_mono _ _ (r_tab s)); [exact X3|exact (P v _ _ _ V)]. }
  assert (SAME : exists x, dkeys (r_tab s) = dkeys (r_tab s) ++ x) by (exists []; now rewrite app_nil_r).
  assert (F' : five_seen (sched ++ [u]) (at_ref (r_heap s) 0)) by (apply (five_mono _ _ (at_ref (r_heap s) 0)); [intros c _; reflexivity|exact F]).
  assert (GP : forall j p, estep (r_heap s) (r_tab s) (r_prof s) t = (put (r_heap s) j (fst (pstep (at_ref (r_heap s) j) p)), r_tab s, TServe j (snd (pstep (at_ref (r_heap s) j) p))) ->
    five_seen (sched ++ [u]) (at_ref (r_heap (rstep s u)) 0) /\ forall v todo p outs, nth_error (r_thr (rstep s u)) v = Some (TUser todo p outs) -> pc_seen (sched ++ [u]) (r_tab (rstep s u)) p).
  { intros j p X. apply (G _ _ _ X); [|exact SAME|discriminate]. destruct (Nat.lt_ge_cases j (length (r_heap s))) as [L|L].
    - rewrite at_put by exact L. destruct (Nat.eqb_spec 0 j) as [<-|]; [|exact F']. apply (five_mono _ _ (at_ref (r_heap s) 0)); [now apply pstep_prof|exact F].
    - assert (EP : forall o, put (r_heap s) j o = r_heap s).
      { intros o. clear -L. revert j L. generalize (r_heap s). intros h. induction h as [|x h IH]; intros [|j] L; cbn in *; try reflexivity; [lia|]. f_equal. apply IH. lia. }
      rewrite EP. exact F'. }
  specialize (TH u). rewrite T in TH. pose proof (P u) as PU.
  destruct t as [todo pc outs|req|j p|].
  - specialize (PU _ _ _ T). destruct TH as (calls & CE & b & A1 & A2 & A3 & A4 & A5).
    assert (LG : forall c, In c calls -> legal h0 c) by (intros c I; rewrite Forall_forall in all_legal; pose proof (all_legal _ (nth_error_In _ _ CE)) as FF; rewrite Forall_forall in FF; exact (FF c I)).
    destruct pc as [| |used pos objs|puts].
    + destruct todo as [|[j|j c d] todo].
      * apply (G (r_heap s) (r_tab s) (TUser [] UNext outs)); auto. intros todo p outs0 Q. assert (p = UNext) by congruence. subst p. exact I.
      * apply (G (r_heap s) (zset (o_code (at_ref (r_heap s) j)) j (r_tab s)) (TUser todo UIter outs)); auto; [apply keys_grow|]. intros todo0 p outs0 Q. assert (p = UIter) by congruence. subst p. exact I.
      * symmetry in A1. destruct (skipn_at _ _ _ _ A1) as (K1 & _). pose proof (LG _ (nth_error_In _ _ K1)) as (LJ & LF).
        cbn [estep] in G. destruct (set_property_data c d (at_ref (r_heap s) j)) as [o r] eqn:D.
        assert (EO : o = fst (set_property_data c d (at_ref (r_heap s) j))) by now rewrite D.
        apply (G (put (r_heap s) j o) (r_tab s) (TUser todo UNext (outs ++ [UBool r]))); auto.
        -- rewrite at_put by lia. destruct (Nat.eqb_spec 0 j) as [J|J]; [|exact F']. subst j. apply (five_mono _ _ (at_ref (r_heap s) 0)); [|exact F].
           intros x FX. rewrite EO, get_data_set. destruct (Z.eqb_spec c x) as [->|]; [destruct LF; auto|]. destruct (get_property_data x _); reflexivity.
        -- intros todo0 p outs0 Q. assert (p = UNext) by congruence. subst p. exact I.
    + apply (G (r_heap s) (r_tab s) (TUser todo (URound (length (r_tab s)) 0 []) outs)); auto. intros todo0 p outs0 Q. assert (p = URound (length (r_tab s)) 0 []) by congruence. subst p. cbn. split; [lia|reflexivity].
    + destruct PU as (P1 & P2). cbn [estep] in G. destruct (negb (Nat.eqb (length (r_tab s)) used)).
      * apply (G (r_heap s) (r_tab s) (TUser todo UNext (outs ++ [UChanged]))); auto. intros todo0 p outs0 Q. assert (p = UNext) by congruence. subst p. exact I.
      * destruct (nth_error (r_tab s) pos) as [[c j]|] eqn:N.
        -- apply (G (r_heap s) (r_tab s) (TUser todo (URound used (S pos) (objs ++ [j])) outs)); auto. intros todo0 p outs0 Q. assert (p = URound used (S pos) (objs ++ [j])) by congruence. subst p. cbn [pc_seen].
           split; [exact (nth_pos _ _ _ N)|]. assert (ND : nth_error (dkeys (r_tab s)) pos = Some c) by (unfold dkeys; now rewrite nth_error_map, N). rewrite (firstn_S _ _ _ ND), map_app, P2. cbn [map].
           rewrite (proj1 (TK c j (nth_error_In _ _ N))). reflexivity.
        -- set (np := np_puts _ _) in G. apply (G (r_heap s) (r_tab s) (TUser todo (UPuts np) outs)); auto. intros todo0 p outs0 Q. assert (p = UPuts np) by congruence. subst p. cbn [pc_seen].
           exists (dkeys (r_tab s)). split; [exact NOW|]. intros c d I FC. unfold np in I. rewrite HP in I.
           assert (EC : map (fun i => o_code (at_ref (r_heap s) i)) objs = dkeys (r_tab s)).
           { rewrite <- (firstn_all2 (dkeys (r_tab s)) (n := pos)); [|unfold dkeys; rewrite map_length; now apply nth_error_None in N]. rewrite <- P2. apply map_ext. intros k. now apply code_at. }
           rewrite EC in I. destruct (np_puts_fine (dkeys (r_tab s)) (at_ref (r_heap s) 0) PO) as ((_ & FF) & _). destruct (FF c (Ok d) I) as (_ & x & X1 & X2). rewrite <- (X2 FC). congruence.
    + destruct PU as (K & SK & PK). destruct A5 as (_ & A6). destruct puts as [|[c d] puts]; cbn [estep] in G.
      * apply (G (r_heap s) (r_tab s) (TUser todo UNext (outs ++ [UBool true]))); auto. intros todo0 p outs0 Q. assert (p = UNext) by congruence. subst p. exact I.
      * destruct (A6 c d) as (F1 & x & ->); [now left|]. rewrite HP, (profile_has _ _ PO F1) in G. cbn [negb] in G.
        apply (G (put (r_heap s) 0 (store c x (at_ref (r_heap s) 0))) (r_tab s) (TUser todo (UPuts puts) outs)); auto.
        -- rewrite at_put by lia. cbn [Nat.eqb]. intros c' FC. unfold store. rewrite get_data_set. destruct (F' c' FC) as (K' & S1 & S2). rewrite S2.
           destruct (Z.eqb_spec c c') as [->|NE]; [|eauto]. exists K. split; [now apply seen_snoc|]. rewrite (PK c' x) by (try (now left); exact FC). reflexivity.
        -- intros todo0 p outs0 Q. assert (p = UPuts puts) by congruence. subst p. cbn [pc_seen]. exists K. split; [now apply seen_snoc|]. intros c' d' I. apply PK. now right.
  - destruct (zget (m_DEOJ req) (r_tab s)) as [j|] eqn:Z1.
    + apply (GP j (SBegin req)). cbn [estep]. rewrite key_of, Z1. destruct (pstep _ _); reflexivity.
    + apply (G (r_heap s) (r_tab s) TNone); auto; [cbn [estep]; rewrite key_of, Z1; reflexivity|discriminate].
  - apply (GP j p). cbn [estep]. destruct (pstep _ _); reflexivity.
  - apply (G (r_heap s) (r_tab s) TNone); auto; discriminate.
Qed.
End Moments.
Lemma L_C91_values : forall (PS : PySet) c r s0 ops devs callss reqs sched code, new_local c r = (s0, Ok tt) -> no_profile ops ->
  let ln := fst (local_adds ops s0) in Forall (Forall (legal (node_heap ln devs))) callss -> In code five ->
  exists a b, sched = a ++ b /\
    live_data code (rrun (together ln devs callss reqs) sched) = Some (says code (dkeys (r_tab (rrun (together ln devs callss reqs) a)))).
Proof.
  intros PS c r s0 ops devs callss reqs sched code N NPr ln A F. set (st := together ln devs callss reqs).
  destruct (many_start c r s0 ops devs callss reqs N NPr) as (L & M0). fold ln in L, M0. fold st in M0.
  assert (MO : moments (node_heap ln devs) st sched).
  { induction sched as [|i sched IH] using rev_ind.
    - split.
      + intros k FK. exists (dkeys (r_tab st)). split; [exists [], []; split; reflexivity|]. pose proof L as (_ & W & ND & p & G & PO & SH). apply shows_shown in SH.
        assert (A0 : nth_error (node_heap ln devs) 0 = Some p) by (pose proof (found_start ln devs NP) as Q; destruct M0 as (_ & _ & _ & _ & Z0 & _); cbn [st together r_tab] in Z0; rewrite Z0, G in Q; exact Q).
        cbn [rrun fold_left st together r_heap r_tab]. rewrite (at_ref_some _ _ _ A0), (SH k FK), table_keys. reflexivity.
      + intros u todo p outs U. cbn [rrun fold_left] in U. destruct M0 as (_ & _ & _ & _ & _ & _ & _ & _ & TH). specialize (TH u). rewrite U in TH. destruct TH as (calls & CE & _).
        cbn [st together r_thr] in U. rewrite nth_error_app1 in U by (rewrite map_length; apply nth_error_Some; congruence). rewrite nth_error_map, CE in U. cbn in U. assert (p = UNext) by congruence. subst p. exact I.
    - apply (moments_step _ (node_table ln) callss); [exact A|apply many_run; [exact A|exact M0]|exact IH]. }
  destruct MO as (MF & _). destruct (MF code F) as (K & (a & b & E & EK) & S2). exists a, b. split; [exact E|]. rewrite <- EK, <- S2.
  pose proof (many_run _ _ _ A st sched M0) as (_ & HC & _ & PL & Z0 & _). unfold live_data, found. change 0x0EF001%Z with NP. rewrite Z0.
  unfold at_ref. rewrite (nth_error_nth' _ nobody) by (rewrite (codes_len _ _ HC); exact PL). reflexivity.
Qed.

(** ** One call among several threads *)
Section Lone.
Context {PS : PySet}.
Lemma put_id {A} (l : list A) u x : nth_error l u = Some x -> put l u x = l.
Proof. revert u. induction l as [|y l IH]; intros [|u] E; cbn in *; try discriminate; [congruence|]. now rewrite IH. Qed.
Lemma nth_put_same {A} (l : list A) u x y : nth_error l u = Some x -> nth_error (put l u y) u = Some y.
Proof. intros E. rewrite nth_put, Nat.eqb_refl, E. reflexivity. Qed.
Lemma rstep_mk h tab prof ths u t h' tab' t' : nth_error ths u = Some t -> estep h tab prof t = (h', tab', t') ->
  rstep (mkrst h tab prof ths) u = mkrst h' tab' prof (put ths u t').
Proof. exact (rstep_at (mkrst h tab prof ths) u t h' tab' t'). Qed.
Lemma rounds_u h tab prof u todo outs : forall k pos ths, k = length tab - pos -> pos <= length tab ->
  nth_error ths u = Some (TUser todo (URound (length tab) pos (map snd (firstn pos tab))) outs) ->
  rrun (mkrst h tab prof ths) (repeat u k) = mkrst h tab prof (put ths u (TUser todo (URound (length tab) (length tab) (map snd tab)) outs)).
Proof.
  induction k as [|k IH]; intros pos ths E L T.
  - assert (pos = length tab) by lia. subst pos. rewrite firstn_all in T. now rewrite put_id.
  - destruct (nth_error tab pos) as [[c i]|] eqn:N; [|apply nth_error_None in N; lia].
    rewrite rrun_repeat, (rstep_mk _ _ _ _ _ _ h tab (TUser todo (URound (length tab) (S pos) (map snd (firstn (S pos) tab))) outs) T).
    + cbn [r_prof r_thr]. rewrite (IH (S pos)); [now rewrite put_put|lia|apply nth_pos in N; lia|exact (nth_put_same _ _ _ _ T)].
    + cbn [r_heap r_tab r_prof estep]. rewrite Nat.eqb_refl. cbn [negb]. rewrite N, (firstn_S _ _ _ N), map_app. reflexivity.
Qed.
Lemma to_puts_u h tab prof u todo i ths outs : nth_error ths u = Some (TUser (CAdd i :: todo) UNext outs) -> let tab' := zset (o_code (at_ref h i)) i tab in
  rrun (mkrst h tab prof ths) (repeat u (3 + length tab')) =
  mkrst h tab' prof (put ths u (TUser todo (UPuts (np_puts (map (fun j => o_code (at_ref h j)) (map snd tab')) (at_ref h prof))) outs)).
Proof.
  intros T tab'. replace (3 + length tab') with (2 + (length tab' + 1)) by lia. change (repeat u (2 + (length tab' + 1))) with (u :: u :: repeat u (length tab' + 1)).
  change (rrun ?s (u :: u :: ?l)) with (rrun (rstep (rstep s u) u) l).
  rewrite (rstep_mk _ _ _ _ _ _ h tab' (TUser todo UIter outs) T) by reflexivity. cbn [r_prof r_thr].
  rewrite (rstep_mk h tab' prof _ u _ h tab' (TUser todo (URound (length tab') 0 []) outs) (nth_put_same _ _ _ _ T)) by reflexivity. cbn [r_prof r_thr]. rewrite put_put.
  rewrite repeat_app, rrun_app, (rounds_u h tab' prof u todo outs (length tab') 0); [|lia|lia|exact (nth_put_same _ _ _ _ T)]. rewrite put_put. cbn [repeat].
  change (rrun ?s [u]) with (rstep s u). rewrite (rstep_mk h tab' prof _ u _ h tab' (TUser todo (UPuts (np_puts (map (fun j => o_code (at_ref h j)) (map snd tab')) (at_ref h prof))) outs) (nth_put_same _ _ _ _ T)).
  - cbn [r_prof r_thr]. now rewrite put_put.
  - cbn [r_heap r_tab r_prof estep]. rewrite Nat.eqb_refl. cbn [negb]. replace (nth_error tab' (length tab')) with (@None (Z * nat)) by (symmetry; apply nth_error_None; lia). reflexivity.
Qed.
Lemma puts_run_u tab u todo outs : forall puts h ths, 0 < length h -> profile_ok (at_ref h 0) -> (forall c d, In (c, d) puts -> In c np_codes /\ exists x, d = Ok x) ->
  nth_error ths u = Some (TUser todo (UPuts puts) outs) ->
  rrun (mkrst h tab 0 ths) (repeat u (length puts + 1)) =
  mkrst (put h 0 (fold_left do_put puts (at_ref h 0))) tab 0 (put ths u (TUser todo UNext (outs ++ [UBool true]))).
Proof.
  induction puts as [|[c d] puts IH]; intros h ths L P F T.
  - cbn [length Nat.add repeat fold_left]. change (rrun ?s [u]) with (rstep s u). rewrite (rstep_mk _ _ _ _ _ _ h tab (TUser todo UNext (outs ++ [UBool true])) T) by reflexivity. cbn [r_prof r_thr]. unfold at_ref. now rewrite put_same.
  - destruct (F c d) as (I & x & ->); [now left|]. cbn [length Nat.add]. rewrite rrun_repeat.
    rewrite (rstep_mk _ _ _ _ _ _ (put h 0 (store c x (at_ref h 0))) tab (TUser todo (UPuts puts) outs) T).
    + cbn [r_prof r_thr]. rewrite IH.
      * cbn [fold_left]. rewrite !put_put, at_put by exact L. reflexivity.
      * now rewrite length_put.
      * rewrite at_put by exact L. cbn [Nat.eqb]. now apply profile_ok_data.
      * intros c' d' I'. apply F. now right.
      * exact (nth_put_same _ _ _ _ T).
    + cbn [r_heap r_tab r_prof estep]. rewrite (profile_has _ _ P I). reflexivity.
Qed.
Lemma puts_shown codes p : profile_ok p -> profile_ok (fold_left do_put (np_puts codes p) p) /\ shown codes (fold_left do_put (np_puts codes p) p).
Proof.
  intros P. destruct (np_update_ok codes p P) as (p' & E & P' & S' & _). rewrite (np_update_puts codes p P) in E. assert (fold_left do_put (np_puts codes p) p = p') by congruence. subst p'.
  split; [exact P'|now apply shows_shown].
Qed.
(** A whole call. *)
Lemma call_u h0 tab0 callss s u i todo outs : Forall (Forall (legal h0)) callss -> many h0 tab0 callss s -> nth_error (r_thr s) u = Some (TUser (CAdd i :: todo) UNext outs) ->
  let tab' := zset (o_code (at_ref h0 i)) i (r_tab s) in
  exists n p', profile_ok p' /\ shown (dkeys tab') p' /\
  rrun s (repeat u n) = mkrst (put (r_heap s) 0 p') tab' 0 (put (r_thr s) u (TUser todo UNext (outs ++ [UBool true]))).
Proof.
  intros A M T tab'. pose proof (many_run _ _ _ A s [u] M) as M1. pose proof M as (HP & HC & PO & PL & Z0 & TK & _).
  destruct M1 as (_ & _ & _ & _ & _ & TK1 & _). change (rrun s [u]) with (rstep s u) in TK1.
  rewrite (rstep_at _ _ _ (r_heap s) (zset (o_code (at_ref (r_heap s) i)) i (r_tab s)) (TUser todo UIter outs) T) in TK1 by reflexivity. cbn [r_tab] in TK1.
  rewrite (code_at _ _ i HC) in TK1. fold tab' in TK1.
  assert (EC : map (fun j => o_code (at_ref (r_heap s) j)) (map snd tab') = dkeys tab').
  { unfold dkeys. rewrite map_map. apply map_ext_in. intros [k j] I. cbn [fst snd]. rewrite (code_at _ _ j HC). exact (proj1 (TK1 k j I)). }
  destruct (puts_shown (dkeys tab') (at_ref (r_heap s) 0) PO) as (P1 & P2).
  exists ((3 + length tab') + (length (np_puts (dkeys tab') (at_ref (r_heap s) 0)) + 1)), (fold_left do_put (np_puts (dkeys tab') (at_ref (r_heap s) 0)) (at_ref (r_heap s) 0)).
  split; [exact P1|]. split; [exact P2|]. rewrite repeat_app, rrun_app.
  pose proof (to_puts_u (r_heap s) (r_tab s) 0 u todo i (r_thr s) outs T) as TP. cbn zeta in TP. rewrite (code_at _ _ i HC) in TP. fold tab' in TP. rewrite EC in TP.
  destruct s as [h tab prof ths]. cbn [r_heap r_tab r_prof r_thr] in *. subst prof. rewrite TP.
  rewrite puts_run_u with (todo := todo) (outs := outs); [now rewrite put_put|rewrite (codes_len _ _ HC); exact PL|exact PO| |exact (nth_put_same _ _ _ _ T)].
  intros c d I. destruct (np_puts_fine (dkeys tab') (at_ref h 0) PO) as ((_ & F) & _). destruct (F c d I) as (F1 & x & F2 & _). eauto.
Qed.
End Lone.
Lemma L_C91_repair : forall (PS : PySet) c r s0 ops devs callss reqs sched u i todo outs, new_local c r = (s0, Ok tt) -> no_profile ops ->
  let ln := fst (local_adds ops s0) in Forall (Forall (legal (node_heap ln devs))) callss ->
  let s := rrun (together ln devs callss reqs) sched in
  nth_error (r_thr s) u = Some (TUser (CAdd i :: todo) UNext outs) ->
  exists n, let s' := rrun s (repeat u n) in results_of u s' = outs ++ [UBool true] /\ tells (dkeys (r_tab s')) s'.
Proof.
  intros PS c r s0 ops devs callss reqs sched u i todo outs N NPr ln A s T.
  pose proof (many_all c r s0 ops devs callss reqs sched N NPr A) as M. fold ln s in M.
  destruct (call_u _ _ _ s u i todo outs A M T) as (n & p' & P1 & P2 & E). exists n. cbn zeta.
  pose proof (many_run _ _ _ A s (repeat u n) M) as (_ & HC & _ & PL & Z0 & _). rewrite E in HC, Z0 |- *. cbn [r_heap r_tab] in HC, Z0.
  split; [unfold results_of; cbn [r_thr]; now rewrite (nth_put_same _ _ _ _ T)|]. intros code F. unfold live_data, found. cbn [r_tab r_heap]. change 0x0EF001%Z with NP. rewrite Z0.
  destruct M as (_ & HCs & _). assert (L0 : exists x, nth_error (r_heap s) 0 = Some x) by (destruct (nth_error (r_heap s) 0) eqn:Q; [eauto|apply nth_error_None in Q; rewrite (codes_len _ _ HCs) in Q; lia]).
  destruct L0 as (x & L0). rewrite (nth_put_same _ _ _ _ L0). now apply P2.
Qed.

(** ** Two calls at the same time *)
Section Two.
Context {PS : PySet}.
Lemma puts_tell K puts : puts_fine K puts -> forall q, profile_ok q -> (forall c, In c five -> In c (map fst puts) \/ get_property_data c q = Some (says c K)) -> shown K (fold_left do_put puts q).
Proof.
  induction puts as [|[c d] puts IH]; intros (ND & F) q P H.
  - intros c C. destruct (H c C) as [[]|E]. exact E.
  - destruct (F c d ltac:(now left)) as (IC & x & -> & FX). cbn [fold_left]. inversion ND as [|y l N1 N2]; subst y l. apply IH.
    + split; [exact N2|]. intros c' d' I. apply F. now right.
    + now apply profile_ok_data.
    + intros c' C. cbn [do_put fst snd]. unfold store. destruct (Z.eq_dec c c') as [->|NE].
      * right. rewrite get_data_set, Z.eqb_refl, (FX C). destruct (has_data_some c' q (profile_has _ _ P IC)) as (y & ->). reflexivity.
      * destruct (H c' C) as [[E|I]|E]; [cbn in E; congruence|now left|]. right. rewrite get_data_set, E. destruct (Z.eqb_spec c c'); [congruence|reflexivity].
Qed.
Lemma new_key (tab : list (Z * nat)) k i : ~ In k (dkeys tab) -> dkeys (zset k i tab) = dkeys tab ++ [k].
Proof. intros N. rewrite zkeys_zset. destruct (zget k tab) eqn:Z; [|reflexivity]. destruct N. apply zget_some. eauto. Qed.
End Two.
Lemma two_legal {PS : PySet} c r s0 ops o1 o2 : new_local c r = (s0, Ok tt) -> no_profile ops -> let ln := fst (local_adds ops s0) in
  is_profile_code (o_code o1) = false -> is_profile_code (o_code o2) = false -> let n := length (ln_objs ln) in
  nth_error (node_heap ln [o1; o2]) n = Some o1 /\ nth_error (node_heap ln [o1; o2]) (S n) = Some o2 /\
  Forall (Forall (legal (node_heap ln [o1; o2]))) [[CAdd n]; [CAdd (S n)]].
Proof.
  intros N NPr ln P1 P2 n.
  assert (E1 : nth_error (node_heap ln [o1; o2]) n = Some o1) by (unfold node_heap; rewrite nth_error_app2; rewrite map_length; [|unfold n; lia]; rewrite Nat.sub_diag; reflexivity).
  assert (E2 : nth_error (node_heap ln [o1; o2]) (S n) = Some o2).
  { unfold node_heap. rewrite nth_error_app2; rewrite map_length; [|unfold n; lia]. replace (S n - length (ln_objs ln)) with 1 by (unfold n; lia). reflexivity. }
  split; [exact E1|]. split; [exact E2|].
  assert (Q1 : o_code o1 <> 0x0EF001%Z) by (intros X; rewrite X in P1; discriminate). assert (Q2 : o_code o2 <> 0x0EF001%Z) by (intros X; rewrite X in P2; discriminate).
  constructor; [constructor; [exists o1; auto|constructor]|]. constructor; [constructor; [exists o2; auto|constructor]|constructor].
Qed.
Lemma L_C91_lost_refuted : forall (PS : PySet) c r s0 ops o1 o2, new_local c r = (s0, Ok tt) -> no_profile ops ->
  let ln := fst (local_adds ops s0) in ~ In (o_code o1) (node_codes ln) -> ~ In (o_code o2) (node_codes ln) -> o_code o1 <> o_code o2 ->
  is_profile_code (o_code o1) = false -> is_profile_code (o_code o2) = false -> let n := length (ln_objs ln) in
  exists sched, let s := rrun (together ln [o1; o2] [[CAdd n]; [CAdd (S n)]] []) sched in
  results_of 0 s = [UBool true] /\ results_of 1 s = [UBool true] /\
  dkeys (r_tab s) = node_codes ln ++ [o_code o1; o_code o2] /\ tells (node_codes ln ++ [o_code o1]) s /\
  live_data 0xD3 s <> Some (says 0xD3 (dkeys (r_tab s))) /\ live_data 0xD5 s <> Some (says 0xD5 (dkeys (r_tab s))).
Proof.
  intros PS c r s0 ops o1 o2 N NPr ln N1 N2 N12 P1 P2 n.
  destruct (two_legal c r s0 ops o1 o2 N NPr P1 P2) as (E1 & E2 & A). fold ln n in E1, E2, A.
  set (devs := [o1; o2]) in *. set (callss := [[CAdd n]; [CAdd (S n)]]) in *. set (st := together ln devs callss []).
  destruct (many_start c r s0 ops devs callss [] N NPr) as (L & M0). fold ln in L, M0. fold st in M0.
  set (h := node_heap ln devs) in *. set (tab := node_table ln) in *. rewrite (lwf_codes ln (proj1 (proj2 L))) in N1, N2 |- *. rewrite <- (table_keys ln) in N1, N2 |- *. fold tab in N1, N2 |- *.
  assert (PO : profile_ok (at_ref h 0)) by apply M0. assert (PL : 0 < length h) by apply M0.
  pose proof (at_ref_some _ _ _ E1) as R1. pose proof (at_ref_some _ _ _ E2) as R2.
  set (tab1 := zset (o_code o1) n tab). assert (K1 : dkeys tab1 = dkeys tab ++ [o_code o1]) by now apply new_key.
  pose proof (to_puts_u h tab 0 0 [] n (r_thr st) [] eq_refl) as TP. cbn zeta in TP. rewrite R1 in TP. fold tab1 in TP.
  change (mkrst h tab 0 (r_thr st)) with st in TP.
  pose proof (many_run _ _ _ A st (repeat 0 (3 + length tab1)) M0) as M1. rewrite TP in M1.
  assert (EC : map (fun j => o_code (at_ref h j)) (map snd tab1) = dkeys tab1).
  { unfold dkeys. rewrite map_map. apply map_ext_in. intros [k j] I. cbn [fst snd]. destruct M1 as (_ & _ & _ & _ & _ & TK & _). exact (proj1 (TK k j I)). }
  rewrite EC in TP, M1. set (puts := np_puts (dkeys tab1) (at_ref h 0)) in *. set (s1 := mkrst h tab1 0 _) in *.
  destruct (call_u _ _ _ s1 1 (S n) [] [] A M1 eq_refl) as (k & p' & PP & PS' & CU). rewrite R2 in CU, PS'. cbn [s1 r_tab r_heap] in CU, PS'. set (tab2 := zset (o_code o2) (S n) tab1) in *.
  assert (K2 : dkeys tab2 = dkeys tab ++ [o_code o1; o_code o2]).
  { unfold tab2. rewrite new_key, K1, <- app_assoc; [reflexivity|]. rewrite K1. intros I. apply in_app_iff in I. destruct I as [I|[I|[]]]; [contradiction|congruence]. }
  destruct (np_puts_fine (dkeys tab1) (at_ref h 0) PO) as (PF & FI). fold puts in PF, FI.
  assert (L1 : 0 < length (put h 0 p')) by (now rewrite length_put).
  assert (A1 : at_ref (put h 0 p') 0 = p') by (rewrite at_put by exact PL; reflexivity).
  pose proof (puts_run_u tab2 0 [] [] puts (put h 0 p') (put (r_thr s1) 1 (TUser [] UNext [UBool true])) L1 ltac:(rewrite A1; exact PP)
    ltac:(intros c' d' I; destruct (proj2 PF c' d' I) as (F1 & x & F2 & _); eauto) eq_refl) as PR. rewrite A1, put_put in PR. cbn [app] in CU, PR.
  exists (repeat 0 (3 + length tab1) ++ repeat 1 k ++ repeat 0 (length puts + 1)). cbn zeta. rewrite !rrun_app, TP. fold s1. rewrite CU, PR.
  set (pf := fold_left do_put puts p'). set (s := mkrst (put h 0 pf) tab2 0 _). cbn [app].
  assert (SH : shown (dkeys tab1) pf) by (apply puts_tell; [exact PF|exact PP|intros c' C; left; now apply FI]).
  assert (Z2 : zget NP tab2 = Some 0).
  { pose proof (many_run _ _ _ A s1 (repeat 1 k) M1) as (_ & _ & _ & _ & Z0 & _). rewrite CU in Z0. exact Z0. }
  assert (LD : forall code, In code five -> live_data code s = Some (says code (dkeys tab1))).
  { intros code F. unfold live_data, found. cbn [s r_tab r_heap]. change 0x0EF001%Z with NP. rewrite Z2.
    destruct (nth_error h 0) as [y|] eqn:H0; [|apply nth_error_None in H0; lia]. rewrite (nth_put_same _ _ _ _ H0). now apply SH. }
  split; [reflexivity|]. split; [reflexivity|]. split; [exact K2|]. split; [intros code F; rewrite <- K1; now apply LD|].
  cbn [s r_tab]. rewrite K2. replace (dkeys tab ++ [o_code o1; o_code o2]) with (dkeys tab1 ++ [o_code o2]) by (rewrite K1, <- app_assoc; reflexivity).
  split; rewrite LD by (cbn; tauto); intros X; [apply (says_D3 (dkeys tab1) (o_code o2) P2)|apply (says_D5 (dkeys tab1) (o_code o2) P2)]; congruence.
Qed.
Lemma L_C91_changed_refuted : forall (PS : PySet) c r s0 ops o1 o2, new_local c r = (s0, Ok tt) -> no_profile ops ->
  let ln := fst (local_adds ops s0) in ~ In (o_code o1) (node_codes ln) -> ~ In (o_code o2) (node_codes ln) -> o_code o1 <> o_code o2 ->
  is_profile_code (o_code o1) = false -> is_profile_code (o_code o2) = false -> let n := length (ln_objs ln) in
  exists sched, results_of 0 (rrun (together ln [o1; o2] [[CAdd n]; [CAdd (S n)]] []) sched) = [UChanged].
Proof.
  intros PS c r s0 ops o1 o2 N NPr ln N1 N2 N12 P1 P2 n.
  destruct (two_legal c r s0 ops o1 o2 N NPr P1 P2) as (E1 & E2 & A). fold ln n in E1, E2, A.
  destruct (many_start c r s0 ops [o1; o2] [[CAdd n]; [CAdd (S n)]] [] N NPr) as (L & _). fold ln in L.
  exists [0; 0; 1; 0]. unfold together. set (h := node_heap ln [o1; o2]) in *. set (tab := node_table ln).
  rewrite (lwf_codes ln (proj1 (proj2 L))) in N1, N2. rewrite <- (table_keys ln) in N1, N2. fold tab in N1, N2.
  pose proof (at_ref_some _ _ _ E1) as R1. pose proof (at_ref_some _ _ _ E2) as R2.
  unfold rrun. cbn [fold_left map app].
  rewrite (rstep_mk h tab 0 _ 0 (TUser [CAdd n] UNext []) h (zset (o_code o1) n tab) (TUser [] UIter [])) by (cbn [estep]; rewrite ?R1; reflexivity). cbn [put].
  set (tab1 := zset (o_code o1) n tab). assert (K1 : dkeys tab1 = dkeys tab ++ [o_code o1]) by now apply new_key.
  rewrite (rstep_mk h tab1 0 _ 0 (TUser [] UIter []) h tab1 (TUser [] (URound (length tab1) 0 []) [])) by reflexivity. cbn [put].
  rewrite (rstep_mk h tab1 0 _ 1 (TUser [CAdd (S n)] UNext []) h (zset (o_code o2) (S n) tab1) (TUser [] UIter [])) by (cbn [estep]; rewrite ?R2; reflexivity). cbn [put].
  set (tab2 := zset (o_code o2) (S n) tab1).
  assert (K2 : dkeys tab2 = dkeys tab1 ++ [o_code o2]).
  { unfold tab2. rewrite new_key; [reflexivity|]. rewrite K1. intros I. apply in_app_iff in I. destruct I as [I|[I|[]]]; [contradiction|congruence]. }
  assert (L2 : length tab2 = S (length tab1)).
  { assert (DL : forall d : list (Z * nat), length (dkeys d) = length d) by (intros d; apply map_length). rewrite <- (DL tab2), K2, app_length, DL. cbn. lia. }
  rewrite (rstep_mk h tab2 0 _ 0 (TUser [] (URound (length tab1) 0 []) []) h tab2 (TUser [] UNext [UChanged])); [reflexivity|reflexivity|].
  cbn [estep]. destruct (Nat.eqb_spec (length tab2) (length tab1)) as [X|X]; [lia|]. reflexivity.
Qed.
