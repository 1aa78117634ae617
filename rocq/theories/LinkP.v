(** Lemmas for C121. *)
From Verif Require Import PyBase BytesM EsvM MsgM PropM ObjM DbData DbM NodeM LocalM CtrlM AddrM DestM LinkM
  SpecWire SpecObj SpecMap SpecReq SpecNode SpecLocal SpecCtrl SpecDest SpecLink DictP BytesP WireP CodecP ObjP DestP.
Local Open Scope nat_scope.

Lemma nth_upd {A} (f : A -> A) l : forall i j, nth_error (upd i f l) j = if i =? j then option_map f (nth_error l j) else nth_error l j.
Proof.
  induction l as [|x l IH]; intros [|i] [|j]; cbn; try reflexivity. - now destruct (i =? j). - apply IH.
Qed.
Lemma len_upd {A} (f : A -> A) l : forall i, length (upd i f l) = length l.
Proof. induction l as [|x l IH]; intros [|i]; cbn; try reflexivity. now rewrite IH. Qed.
Lemma nth_snoc {A} (l : list A) x j y : nth_error (l ++ [x]) j = Some y -> nth_error l j = Some y \/ j = length l /\ y = x.
Proof.
  intros H. destruct (Nat.lt_ge_cases j (length l)) as [L|L].
  - left. now rewrite nth_error_app1 in H.
  - right. rewrite nth_error_app2 in H by exact L. destruct (j - length l) as [|k] eqn:E; cbn in H; [injection H as <-; split; [lia|reflexivity]|]. destruct k; discriminate.
Qed.

Lemma latest_snoc {A} (f : list gop -> gop -> option A) ops op : forall b acc,
  latest f b (ops ++ [op]) acc = match f (b ++ ops) op with Some x => Some x | None => latest f b ops acc end.
Proof.
  induction ops as [|x ops IH]; intros b acc; cbn [app latest]; [now rewrite app_nil_r|]. rewrite IH, <- app_assoc. reflexivity.
Qed.
Lemma over_snoc {A} (f : list gop -> gop -> option A) ops op : over f (ops ++ [op]) = match f ops op with Some x => Some x | None => over f ops end.
Proof. apply latest_snoc. Qed.
Lemma proper_snoc ops op : proper (ops ++ [op]) -> proper ops /\ usable ops op.
Proof.
  intros H. split; [|apply (H ops op []); reflexivity]. intros b x a ->. apply (H b x (a ++ [op])). now rewrite <- app_assoc.
Qed.

Record tracks (ops : list gop) (g : graph) : Prop := mktr {
  t_made : made ops = (length (gr_props g), length (gr_objs g), length (gr_nodes g));
  t_props : forall p x, nth_error (gr_props g) p = Some x -> prop_code p ops = Some (gp_code x) /\ object_of p ops = gp_obj x;
  t_objs : forall o x, nth_error (gr_objs g) o = Some x -> obj_code o ops = Some (go_code x) /\ node_of o ops = go_node x;
  t_nodes : forall n x, nth_error (gr_nodes g) n = Some x -> is_remote n ops = Some (gn_remote x) /\ (gn_remote x = true -> finder n ops = gn_ctl x) /\
    gn_addr x = match address_of n ops with Some (x, y) => [x; y] | None => [] end;
  t_noprop : forall p, length (gr_props g) <= p -> object_of p ops = None;
  t_noobj : forall o, length (gr_objs g) <= o -> node_of o ops = None;
  t_nonode : forall n, length (gr_nodes g) <= n -> finder n ops = None /\ address_of n ops = None;
  t_node : forall o n, node_of o ops = Some n -> n < length (gr_nodes g);
  t_obj : forall p o, object_of p ops = Some o -> o < length (gr_objs g) }.

Ltac snoc := unfold prop_code, obj_code, object_of, node_of, is_remote, finder, address_of in *; rewrite ?over_snoc.
Lemma a_set_items v n : fst (a_set v n) = match v with VTuple [x; y] => [x; y] | _ => n end.
Proof. destruct v as [[|x [|y [|]]]| | |]; reflexivity. Qed.
Lemma made_snoc ops op : made (ops ++ [op]) =
  let '(p, o, n) := made ops in match op with GProp _ => (S p, o, n) | GObj _ => (p, S o, n) | GNode _ _ => (p, o, S n) | _ => (p, o, n) end.
Proof. unfold made. rewrite !filter_app, !app_length. destruct op; cbn; repeat f_equal; lia. Qed.
Lemma tracks_step ops op g : tracks ops g -> usable ops op -> tracks (ops ++ [op]) (g_step g op).
Proof.
  intros [M P O N NP NO NN TN TO] U. unfold usable in U. rewrite M in U. destruct op as [c|c|r v|o p|n o|o c|n v|c n]; cbn [g_step].
  - (* GProp *)
    split; cbn [gr_props gr_objs gr_nodes gr_found].
    + rewrite made_snoc, M, app_length. cbn [length]. repeat f_equal; lia.
    + intros p x H. apply nth_snoc in H. snoc. rewrite M. cbn [fst snd]. destruct H as [H|(-> & ->)].
      * assert (p < length (gr_props g)) by (apply nth_error_Some; congruence). replace (length (gr_props g) =? p) with false by (symmetry; apply Nat.eqb_neq; lia). apply (P p x H).
      * rewrite Nat.eqb_refl. split; [reflexivity|]. apply NP. lia.
    + intros o x H. snoc. apply (O o x H).
    + intros n x H. snoc. apply (N n x H).
    + intros p H. rewrite app_length in H. snoc. apply NP. lia.
    + intros o H. snoc. now apply NO.
    + intros n H. snoc. now apply NN.
    + intros o n H. snoc. rewrite over_snoc in H. now apply (TN o).
    + intros p o H. snoc. rewrite over_snoc in H. now apply (TO p).
  - (* GObj *)
    split; cbn [gr_props gr_objs gr_nodes gr_found].
    + rewrite made_snoc, M, app_length. cbn [length]. repeat f_equal; lia.
    + intros p x H. snoc. apply (P p x H).
    + intros p x H. apply nth_snoc in H. snoc. rewrite M. cbn [fst snd]. destruct H as [H|(-> & ->)].
      * assert (p < length (gr_objs g)) by (apply nth_error_Some; congruence). replace (length (gr_objs g) =? p) with false by (symmetry; apply Nat.eqb_neq; lia). apply (O p x H).
      * rewrite Nat.eqb_refl. split; [reflexivity|]. apply NO. lia.
    + intros n x H. snoc. apply (N n x H).
    + intros o H. snoc. now apply NP.
    + intros p H. rewrite app_length in H. snoc. apply NO. lia.
    + intros n H. snoc. now apply NN.
    + intros o n H. snoc. rewrite over_snoc in H. now apply (TN o).
    + intros p o H. snoc. rewrite over_snoc in H. rewrite app_length. cbn [length]. specialize (TO p o H). lia.
  - (* GNode *)
    split; cbn [gr_props gr_objs gr_nodes gr_found].
    + rewrite made_snoc, M, app_length. cbn [length]. repeat f_equal; lia.
    + intros p x H. snoc. apply (P p x H).
    + intros p x H. snoc. apply (O p x H).
    + intros p x H. apply nth_snoc in H. snoc. rewrite M. cbn [fst snd]. destruct H as [H|(-> & ->)].
      * assert (p < length (gr_nodes g)) by (apply nth_error_Some; congruence). replace (length (gr_nodes g) =? p) with false by (symmetry; apply Nat.eqb_neq; lia). apply (N p x H).
      * rewrite Nat.eqb_refl. destruct (NN (length (gr_nodes g)) (le_n _)) as (F & A). split; [reflexivity|]. cbn [gn_remote gn_ctl gn_addr]. split; [intros _; exact F|].
        unfold a_new. rewrite a_set_items. rewrite A. destruct v as [[|x [|y [|]]]| | |]; reflexivity.
    + intros o H. snoc. now apply NP.
    + intros o H. snoc. now apply NO.
    + intros p H. rewrite app_length in H. cbn [length] in H. snoc. rewrite M. cbn [fst snd]. replace (length (gr_nodes g) =? p) with false by (symmetry; apply Nat.eqb_neq; lia). apply NN. lia.
    + intros o n H. snoc. rewrite over_snoc in H. rewrite app_length. cbn [length]. specialize (TN o n H). lia.
    + intros p o H. snoc. rewrite over_snoc in H. now apply (TO p).
  - (* GAddProp *)
    destruct U as (U1 & U2). destruct (nth_error (gr_props g) p) as [q|] eqn:Q; [|apply nth_error_None in Q; lia].
    split; cbn [on_prop on_obj gr_props gr_objs gr_nodes gr_found].
    + rewrite made_snoc, M, !len_upd. reflexivity.
    + intros p1 x H. rewrite nth_upd in H. snoc. destruct (p =? p1) eqn:E; [|apply (P p1 x H)].
      apply Nat.eqb_eq in E. subst p1. rewrite Q in H. injection H as <-. split; [apply (P p q Q)|reflexivity].
    + intros o1 x H. rewrite nth_upd in H. snoc. destruct (o =? o1) eqn:E; [|apply (O o1 x H)].
      destruct (nth_error (gr_objs g) o1) as [y|] eqn:Y; [|discriminate]. injection H as <-. apply (O o1 y Y).
    + intros n x H. snoc. apply (N n x H).
    + intros p1 H. rewrite len_upd in H. snoc. replace (p =? p1) with false by (symmetry; apply Nat.eqb_neq; lia). now apply NP.
    + intros o1 H. rewrite len_upd in H. snoc. now apply NO.
    + intros n H. snoc. now apply NN.
    + intros o1 n H. snoc. rewrite over_snoc in H. now apply (TN o1).
    + intros p1 o1 H. rewrite len_upd. snoc. rewrite over_snoc in H. destruct (p =? p1); [injection H as <-; exact U1|now apply (TO p1)].
  - (* GAddObj *)
    destruct U as (U1 & U2). destruct (nth_error (gr_objs g) o) as [q|] eqn:Q; [|apply nth_error_None in Q; lia].
    split; cbn [on_node on_obj gr_props gr_objs gr_nodes gr_found].
    + rewrite made_snoc, M, !len_upd. reflexivity.
    + intros p x H. snoc. apply (P p x H).
    + intros p1 x H. rewrite nth_upd in H. snoc. destruct (o =? p1) eqn:E; [|apply (O p1 x H)].
      apply Nat.eqb_eq in E. subst p1. rewrite Q in H. injection H as <-. split; [apply (O o q Q)|reflexivity].
    + intros o1 x H. rewrite nth_upd in H. snoc. destruct (n =? o1) eqn:E; [|apply (N o1 x H)].
      destruct (nth_error (gr_nodes g) o1) as [y|] eqn:Y; [|discriminate]. injection H as <-. apply (N o1 y Y).
    + intros p H. snoc. now apply NP.
    + intros p1 H. rewrite len_upd in H. snoc. replace (o =? p1) with false by (symmetry; apply Nat.eqb_neq; lia). now apply NO.
    + intros n1 H. rewrite len_upd in H. snoc. now apply NN.
    + intros p1 o1 H. rewrite len_upd. snoc. rewrite over_snoc in H. destruct (o =? p1); [injection H as <-; exact U1|now apply (TN p1)].
    + intros p o1 H. rewrite len_upd. snoc. rewrite over_snoc in H. now apply (TO p).
  - (* GSetCode *)
    split; cbn [on_obj gr_props gr_objs gr_nodes gr_found].
    + rewrite made_snoc, M, !len_upd. reflexivity.
    + intros p x H. snoc. apply (P p x H).
    + intros p1 x H. rewrite nth_upd in H. snoc. destruct (o =? p1) eqn:E; [|apply (O p1 x H)].
      destruct (nth_error (gr_objs g) p1) as [y|] eqn:Y; [|discriminate]. injection H as <-. split; [reflexivity|]. apply (O p1 y Y).
    + intros n x H. snoc. apply (N n x H).
    + intros p H. snoc. now apply NP.
    + intros p1 H. rewrite len_upd in H. snoc. now apply NO.
    + intros n1 H. snoc. now apply NN.
    + intros p1 o1 H. snoc. rewrite over_snoc in H. now apply (TN p1).
    + intros p o1 H. rewrite len_upd. snoc. rewrite over_snoc in H. now apply (TO p).
  - (* GSetAddr *)
    split; cbn [on_node gr_props gr_objs gr_nodes gr_found].
    + rewrite made_snoc, M, !len_upd. reflexivity.
    + intros p x H. snoc. apply (P p x H).
    + intros p x H. snoc. apply (O p x H).
    + intros p1 x H. rewrite nth_upd in H. snoc. destruct (n =? p1) eqn:E; [|apply (N p1 x H)].
      destruct (nth_error (gr_nodes g) p1) as [y|] eqn:Y; [|discriminate]. injection H as <-. destruct (N p1 y Y) as (A & B & C).
      cbn [gn_remote gn_ctl gn_addr]. split; [exact A|]. split; [exact B|]. rewrite a_set_items, C. destruct v as [[|x [|z [|]]]| | |]; reflexivity.
    + intros p H. snoc. now apply NP.
    + intros p H. snoc. now apply NO.
    + intros p1 H. rewrite len_upd in H. snoc. destruct (n =? p1) eqn:E; [apply Nat.eqb_eq in E; lia|]. now apply NN.
    + intros p1 o1 H. rewrite len_upd. snoc. rewrite over_snoc in H. now apply (TN p1).
    + intros p o1 H. snoc. rewrite over_snoc in H. now apply (TO p).
  - (* GRegister *)
    destruct (nth_error (gr_nodes g) n) as [q|] eqn:Q; [|apply nth_error_None in Q; lia].
    set (g1 := if negb (gn_remote q) then g else on_node n (fun x => mkgn (gn_remote x) (Some c) (gn_addr x) (gn_objs x)) (match a_ip (gn_addr q) with VStr h => on_found c (sset h n) g | _ => g end)).
    assert (Gp : gr_props g1 = gr_props g) by (unfold g1; destruct (gn_remote q); [|reflexivity]; destruct (a_ip _); reflexivity).
    assert (Go : gr_objs g1 = gr_objs g) by (unfold g1; destruct (gn_remote q); [|reflexivity]; destruct (a_ip _); reflexivity).
    assert (Gn : gr_nodes g1 = if gn_remote q then upd n (fun x => mkgn (gn_remote x) (Some c) (gn_addr x) (gn_objs x)) (gr_nodes g) else gr_nodes g)
      by (unfold g1; destruct (gn_remote q); [|reflexivity]; destruct (a_ip _); reflexivity).
    assert (Gl : length (gr_nodes g1) = length (gr_nodes g)) by (rewrite Gn; destruct (gn_remote q); [apply len_upd|reflexivity]).
    split; rewrite ?Gp, ?Go, ?Gl.
    + rewrite made_snoc, M. reflexivity.
    + intros p x H. snoc. apply (P p x H).
    + intros p x H. snoc. apply (O p x H).
    + intros p1 x H. rewrite Gn in H. snoc. destruct (n =? p1) eqn:E.
      * apply Nat.eqb_eq in E. subst p1. destruct (N n q Q) as (A & B & C). destruct (gn_remote q) eqn:Rq.
        -- rewrite nth_upd, Nat.eqb_refl, Q in H. injection H as <-. cbn [gn_remote gn_ctl gn_addr]. rewrite Rq. split; [exact A|]. split; [reflexivity|exact C].
        -- rewrite Q in H. injection H as <-. rewrite Rq. split; [exact A|]. split; [discriminate|exact C].
      * apply (N p1 x). destruct (gn_remote q); [|exact H]. rewrite nth_upd, E in H. exact H.
    + intros p H. snoc. now apply NP.
    + intros p H. snoc. now apply NO.
    + intros p1 H. snoc. destruct (n =? p1) eqn:E; [apply Nat.eqb_eq in E; lia|]. now apply NN.
    + intros p1 o1 H. snoc. rewrite over_snoc in H. now apply (TN p1).
    + intros p o1 H. snoc. rewrite over_snoc in H. now apply (TO p).
Qed.
Lemma tracks_run k ops : proper ops -> tracks ops (g_run (g_empty k) ops).
Proof.
  induction ops as [|op ops IH] using rev_ind; intros H.
  - split; try (intros [|]; discriminate); try reflexivity; intros; try discriminate; split; reflexivity.
  - apply proper_snoc in H. destruct H as (H & U). unfold g_run. rewrite fold_left_app. cbn [fold_left]. apply tracks_step; [now apply IH|exact U].
Qed.

Lemma create_loop_pairs l : forall m, create_loop m (map (fun p => PPair (p_code p) (p_data p)) l) =
  Some (mkmsg (m_TID m) (m_SEOJ m) (m_DEOJ m) (m_ESV m) (m_props m ++ l) (m_sets m) (m_gets m) (m_from m) (m_to m)).
Proof.
  induction l as [|[c d] l IH]; intros m; cbn [map create_loop p_code p_data]; [rewrite app_nil_r; destruct m; reflexivity|].
  rewrite IH. destruct m; cbn. rewrite <- app_assoc. reflexivity.
Qed.
Lemma create_pairs code esv l : create_message code esv (pairs l) = Some (asks code esv l).
Proof. unfold create_message, pairs. rewrite create_loop_pairs. reflexivity. Qed.
Lemma create_bad code esv a : malformed a -> create_message code esv a = None.
Proof.
  destruct a as [l|]; [|reflexivity]. cbn. generalize (set_ESV esv (set_DEOJ code new_msg)). induction l as [|[c d|] l IH]; intros m H; [destruct H| |reflexivity].
  destruct H as [H|H]; [discriminate|]. cbn [create_loop]. now apply IH.
Qed.

(** ** Where requests go *)
Lemma use_obj_cases k ops o esv props : proper ops -> o < snd (fst (made ops)) -> exists code, obj_code o ops = Some code /\
  use_obj (g_run (g_empty k) ops) o esv props =
  match create_message code esv props with
  | None => UFalse
  | Some m =>
      match node_of o ops with
      | None => URaise
      | Some n => match is_remote n ops, finder n ops with
                  | Some true, Some c => USent c m (match address_of n ops with Some (x, y) => [x; y] | None => [] end)
                  | _, _ => URaise
                  end
      end
  end.
Proof.
  intros H L. destruct (tracks_run k ops H) as [M _ O N _ _ _ TN _]. unfold use_obj. set (g := g_run (g_empty k) ops) in *.
  rewrite M in L. cbn [fst snd] in L. destruct (nth_error (gr_objs g) o) as [x|] eqn:X; [|apply nth_error_None in X; lia].
  destruct (O o x X) as (C & Nd). exists (go_code x). split; [exact C|]. destruct (create_message (go_code x) esv props) as [m|]; [|reflexivity].
  rewrite <- Nd. destruct (node_of o ops) as [n|] eqn:E; [|reflexivity]. specialize (TN o n E). destruct (nth_error (gr_nodes g) n) as [y|] eqn:Y; [|apply nth_error_None in Y; lia].
  destruct (N n y Y) as (R & F & A). rewrite R. destruct (gn_remote y); [|reflexivity]. rewrite (F eq_refl). destruct (gn_ctl y); [|reflexivity]. now rewrite A.
Qed.
Lemma L_C121_goes : forall k ops o n c a esv l, proper ops -> o < snd (fst (made ops)) -> node_of o ops = Some n -> found_at ops n c a ->
  exists code, obj_code o ops = Some code /\ use_obj (g_run (g_empty k) ops) o esv (pairs l) = USent c (asks code esv l) a.
Proof.
  intros k ops o n c a esv l H L Hn (R & F & A). destruct (use_obj_cases k ops o esv (pairs l) H L) as (code & C & ->). exists code. split; [exact C|].
  rewrite create_pairs, Hn, R, F. f_equal. destruct (address_of n ops) as [[x y]|]; now rewrite A.
Qed.
Lemma L_C121_property : forall k ops p o n c a esv d, proper ops -> p < fst (fst (made ops)) -> object_of p ops = Some o -> node_of o ops = Some n -> found_at ops n c a ->
  exists code pc, obj_code o ops = Some code /\ prop_code p ops = Some pc /\ use_prop (g_run (g_empty k) ops) p esv d = USent c (asks code esv [mkprop pc d]) a.
Proof.
  intros k ops p o n c a esv d H L Ho Hn Fo. pose proof (tracks_run k ops H) as T. destruct T as [M P _ _ _ _ _ _ TO]. specialize (TO p o Ho).
  set (g := g_run (g_empty k) ops) in *. assert (Lo : o < snd (fst (made ops))) by (rewrite M; exact TO). rewrite M in L. cbn [fst] in L.
  destruct (nth_error (gr_props g) p) as [x|] eqn:X; [|apply nth_error_None in X; lia]. destruct (P p x X) as (Pc & Po).
  destruct (L_C121_goes k ops o n c a esv [mkprop (gp_code x) d] H Lo Hn Fo) as (code & C & U). exists code, (gp_code x). split; [exact C|]. split; [exact Pc|].
  unfold use_prop. rewrite X, <- Po, Ho. exact U.
Qed.
Lemma L_C121_malformed : forall k ops o esv props, proper ops -> o < snd (fst (made ops)) -> malformed props -> use_obj (g_run (g_empty k) ops) o esv props = UFalse.
Proof. intros k ops o esv props H L Bd. destruct (use_obj_cases k ops o esv props H L) as (code & _ & ->). now rewrite create_bad. Qed.
Lemma L_C121_detached_refuted : forall k ops, proper ops ->
  (forall o esv l, o < snd (fst (made ops)) -> (node_of o ops = None \/ exists n, node_of o ops = Some n /\ not_found ops n) -> use_obj (g_run (g_empty k) ops) o esv (pairs l) = URaise) /\
  (forall p esv d, p < fst (fst (made ops)) -> object_of p ops = None -> use_prop (g_run (g_empty k) ops) p esv d = URaise).
Proof.
  intros k ops H. split.
  - intros o esv l L D. destruct (use_obj_cases k ops o esv (pairs l) H L) as (code & _ & ->). rewrite create_pairs. destruct D as [->|(n & -> & D)]; [reflexivity|].
    destruct D as [->| ->]; [reflexivity|]. destruct (is_remote n ops) as [[|]|]; reflexivity.
  - intros p esv d L D. destruct (tracks_run k ops H) as [M P _ _ _ _ _ _ _]. set (g := g_run (g_empty k) ops) in *. rewrite M in L. cbn [fst] in L.
    destruct (nth_error (gr_props g) p) as [x|] eqn:X; [|apply nth_error_None in X; lia]. destruct (P p x X) as (_ & Po). unfold use_prop. rewrite X, <- Po, D. reflexivity.
Qed.

(** ** Announcements *)
Definition has_props (std : Z -> list Z) (g : graph) (c : Z) (o : nat) (tab : list (Z * nat)) (l : list Z) : Prop :=
  forall pc, In pc l -> exists p z, zget pc tab = Some p /\ nth_error (gr_props g) p = Some z /\ gp_code z = pc /\ gp_obj z = Some o.
Lemma new_std_spec std c g : exists new tab, let '(g', o) := new_std std c g in
  o = length (gr_objs g) /\ gr_objs g' = gr_objs g ++ [mkgo c tab None] /\ gr_props g' = gr_props g ++ new /\
  gr_nodes g' = gr_nodes g /\ gr_found g' = gr_found g /\ has_props std g' c o tab (std c).
Proof.
  unfold new_std. set (o := length (gr_objs g)).
  assert (G : forall l done g1 new1 tab1, gr_objs g1 = gr_objs g ++ [mkgo c tab1 None] -> gr_props g1 = gr_props g ++ new1 -> gr_nodes g1 = gr_nodes g -> gr_found g1 = gr_found g -> has_props std g1 c o tab1 done ->
    exists new tab, let g' := fold_left (fun g pc => g_step (g_step g (GProp pc)) (GAddProp o (length (gr_props g)))) l g1 in
      gr_objs g' = gr_objs g ++ [mkgo c tab None] /\ gr_props g' = gr_props g ++ new /\ gr_nodes g' = gr_nodes g /\ gr_found g' = gr_found g /\ has_props std g' c o tab (done ++ l)).
  { induction l as [|pc l IH]; intros done g1 new1 tab1 Ho Hp Hn Hf Hh; cbn [fold_left].
    - exists new1, tab1. rewrite app_nil_r. repeat split; assumption.
    - cbn [g_step gr_props]. rewrite nth_error_app2 by lia. rewrite Nat.sub_diag. cbn [nth_error gp_code].
      set (k := length (gr_props g1)). match goal with |- context[fold_left _ l ?x] => set (g2 := x) end.
      assert (P2 : gr_props g2 = gr_props g1 ++ [mkgp pc (Some o)]).
      { unfold g2. cbn [on_prop on_obj gr_props]. unfold k. clear. induction (gr_props g1) as [|x r IHr]; cbn; [reflexivity|now rewrite IHr]. }
      assert (O2 : gr_objs g2 = gr_objs g ++ [mkgo c (zset pc k tab1) None]).
      { unfold g2. cbn [on_prop on_obj gr_objs]. rewrite Ho. unfold o. clear. induction (gr_objs g) as [|x r IHr]; cbn; [reflexivity|now rewrite IHr]. }
      destruct (IH (done ++ [pc]) g2 (new1 ++ [mkgp pc (Some o)]) (zset pc k tab1)) as (new & tab & A); try assumption.
      + rewrite P2, Hp. now rewrite <- app_assoc.
      + intros q Hq. destruct (Z.eq_dec q pc) as [->|Ne].
        * exists k, (mkgp pc (Some o)). split; [apply zget_zset_same|]. split; [|split; reflexivity]. rewrite P2. unfold k. rewrite nth_error_app2 by lia. now rewrite Nat.sub_diag.
        * apply in_app_iff in Hq. destruct Hq as [Hq|[Hq|[]]]; [|congruence]. destruct (Hh q Hq) as (p & z & A1 & A2 & A3 & A4). exists p, z.
          split; [rewrite zget_zset_other by congruence; exact A1|]. split; [|split; assumption]. rewrite P2. rewrite nth_error_app1; [exact A2|]. apply nth_error_Some. congruence.
      + exists new, tab. rewrite <- app_assoc in A. exact A. }
  destruct (G (std c) [] (g_step g (GObj c)) [] []) as (new & tab & A); try reflexivity.
  - cbn. now rewrite app_nil_r.
  - intros pc [].
  - exists new, tab. split; [reflexivity|]. exact A.
Qed.
Section Heard.
Variable std : Z -> list Z.
(** The node [n] has the address [a], is not found yet, and has the objects [cs] with their properties. *)
Record fresh_node (g : graph) (n : nat) (a : list pyval) (cs : list Z) : Prop := mkfn {
  fn_node : exists tab, nth_error (gr_nodes g) n = Some (mkgn true None a tab) /\
    (forall code o, zget code tab = Some o -> exists x, nth_error (gr_objs g) o = Some x /\ go_code x = code /\ go_node x = Some n /\ has_props std g code o (go_props x) (std code)) /\
    forall code, In code cs -> exists o, zget code tab = Some o }.
Lemma add_std_spec g n a cs c : fresh_node g n a cs -> fresh_node (add_std std n g c) n a (cs ++ [c]) /\ gr_found (add_std std n g c) = gr_found g.
Proof.
  intros [(tab & Hn & Ho & Hc)]. unfold add_std. destruct (new_std_spec std c g) as (new & pt & S). destruct (new_std std c g) as [g1 o]. destruct S as (-> & O1 & P1 & N1 & F1 & H1).
  cbn [g_step]. rewrite O1, nth_error_app2 by lia. rewrite Nat.sub_diag. cbn [nth_error go_code]. set (o := length (gr_objs g)) in *.
  match goal with |- fresh_node ?x _ _ _ /\ _ => set (g2 := x) end.
  assert (P2 : gr_props g2 = gr_props g1) by reflexivity.
  assert (O2 : gr_objs g2 = gr_objs g ++ [mkgo c pt (Some n)]).
  { unfold g2. cbn [on_node on_obj gr_objs]. rewrite O1. unfold o. clear. induction (gr_objs g) as [|x r IHr]; cbn; [reflexivity|now rewrite IHr]. }
  split; [|exact F1]. split. exists (zset c o tab). split; [|split].
  - unfold g2. cbn [on_node on_obj gr_nodes]. rewrite nth_upd, Nat.eqb_refl, N1, Hn. reflexivity.
  - intros code q Hq. destruct (Z.eq_dec code c) as [->|Ne].
    + rewrite zget_zset_same in Hq. assert (q = o) as -> by congruence. exists (mkgo c pt (Some n)). rewrite O2, nth_error_app2 by (unfold o; lia).
      unfold o at 1. rewrite Nat.sub_diag. repeat split. exact H1.
    + rewrite zget_zset_other in Hq by congruence. destruct (Ho code q Hq) as (x & A & B & C & D). exists x. rewrite O2, nth_error_app1 by (apply nth_error_Some; congruence).
      repeat split; try assumption. intros pc Hpc. destruct (D pc Hpc) as (p & z & D1 & D2 & D3). exists p, z. split; [exact D1|]. split; [|exact D3]. rewrite P2, P1.
      rewrite nth_error_app1; [exact D2|]. apply nth_error_Some. congruence.
  - intros code Hq. destruct (Z.eq_dec code c) as [->|Ne]; [exists o; apply zget_zset_same|]. apply in_app_iff in Hq. destruct Hq as [Hq|[Hq|[]]]; [|congruence].
    destruct (Hc code Hq) as (q & Q). exists q. now rewrite zget_zset_other by congruence.
Qed.
Lemma new_remote_spec v codes g : let '(g', n) := new_remote std v codes g in
  n = length (gr_nodes g) /\ fresh_node g' n (a_new v) (0x0EF001%Z :: codes) /\ gr_found g' = gr_found g.
Proof.
  unfold new_remote. split; [reflexivity|]. set (n := length (gr_nodes g)).
  assert (G : forall l cs g1, fresh_node g1 n (a_new v) cs -> gr_found g1 = gr_found g -> fresh_node (fold_left (add_std std n) l g1) n (a_new v) (cs ++ l) /\ gr_found (fold_left (add_std std n) l g1) = gr_found g).
  { induction l as [|c l IH]; intros cs g1 H F; cbn [fold_left]; [rewrite app_nil_r; split; assumption|].
    destruct (add_std_spec g1 n (a_new v) cs c H) as (H2 & F2). destruct (IH (cs ++ [c]) _ H2 ltac:(congruence)) as (A & B). rewrite <- app_assoc in A. split; assumption. }
  apply (G (0x0EF001%Z :: codes) []); [|reflexivity]. split. exists []. split; [|split; [discriminate|intros code []]]. cbn [g_step gr_nodes]. rewrite nth_error_app2 by (unfold n; lia). unfold n. now rewrite Nat.sub_diag.
Qed.
Lemma told_raises g n us : (exists u, In u us /\ run_use g n u = URaise) -> exists l, told g n us = (l, false).
Proof.
  induction us as [|u us IH]; intros (v & Hv & R); [destruct Hv|]. cbn [told]. destruct Hv as [->|Hv]; [rewrite R; eexists; reflexivity|].
  destruct (IH (ex_intro _ v (conj Hv R))) as (l & ->). destruct (run_use g n u); eexists; reflexivity.
Qed.
Lemma told_early g n a cs code esv l us : fresh_node g n a cs -> In (UThrough code esv (pairs l)) us -> exists r, told g n us = (r, false).
Proof.
  intros [(tab & Hn & Ho & _)] H. apply told_raises. eexists. split; [exact H|]. cbn [run_use]. rewrite Hn. cbn [gn_objs]. destruct (zget code tab) as [o|] eqn:E; [|reflexivity].
  destruct (Ho code o E) as (x & X & C & N & _). unfold use_obj. rewrite X, create_pairs, N, Hn. reflexivity.
Qed.
End Heard.

Lemma L_C121_early_refuted : forall std c a codes cbs g code esv l, In (UThrough code esv (pairs l)) (concat cbs) ->
  exists g' r, heard std c a codes cbs g = (g', r, false) /\ gr_found g' = gr_found g.
Proof.
  intros std c a codes cbs g code esv l H. unfold heard. pose proof (new_remote_spec std (VTuple [VStr (fst a); VInt (snd a)]) codes g) as S.
  destruct (new_remote std _ codes g) as [g1 n]. destruct S as (_ & Fr & Ff). destruct (told_early std g1 n _ _ code esv l _ Fr H) as (r & ->). exists g1, r. split; [reflexivity|exact Ff].
Qed.
Lemma L_C121_never_refuted : forall std cbs code esv l, In (UThrough code esv (pairs l)) (concat cbs) ->
  forall (anns : list (nat * addr * list Z)) g, gr_found (fold_left (fun g x => fst (fst (heard std (fst (fst x)) (snd (fst x)) (snd x) cbs g))) anns g) = gr_found g.
Proof.
  intros std cbs code esv l H. induction anns as [|[[c a] codes] anns IH]; intros g; [reflexivity|]. cbn [fold_left fst snd]. rewrite IH.
  destruct (L_C121_early_refuted std c a codes cbs g code esv l H) as (g' & r & -> & F). exact F.
Qed.
Lemma L_C121_found : forall std c h p codes cbs g g' r, c < length (gr_found g) -> heard std c (h, p) codes cbs g = (g', r, true) ->
  forall code, code = 0x0EF001%Z \/ In code codes -> exists o x, found_obj g' c h code = Some o /\ nth_error (gr_objs g') o = Some x /\
    (forall esv l, use_obj g' o esv (pairs l) = USent c (asks code esv l) [VStr h; VInt p]) /\
    (forall pc, In pc (std code) -> exists q, zget pc (go_props x) = Some q /\ forall esv d, use_prop g' q esv d = USent c (asks code esv [mkprop pc d]) [VStr h; VInt p]).
Proof.
  intros std c h p codes cbs g g' r L H code Hc. unfold heard in H. pose proof (new_remote_spec std (VTuple [VStr h; VInt p]) codes g) as S. cbn [fst snd] in H.
  destruct (new_remote std _ codes g) as [g1 n]. destruct S as (_ & [(tab & Hn & Ho & Ht)] & Ff). destruct (told g1 n (concat cbs)) as [r1 [|]]; [|discriminate].
  assert (g' = g_step g1 (GRegister c n)) as -> by congruence. clear H. cbn [g_step]. rewrite Hn. cbn [gn_remote negb gn_addr]. change (a_ip (a_new (VTuple [VStr h; VInt p]))) with (VStr h).
  cbn iota beta. set (g2 := on_node n _ _).
  assert (N2 : nth_error (gr_nodes g2) n = Some (mkgn true (Some c) [VStr h; VInt p] tab)).
  { unfold g2. cbn [on_node on_found gr_nodes]. rewrite nth_upd, Nat.eqb_refl, Hn. reflexivity. }
  assert (O2 : gr_objs g2 = gr_objs g1) by reflexivity. assert (P2 : gr_props g2 = gr_props g1) by reflexivity.
  assert (T2 : exists t, nth_error (gr_found g2) c = Some t /\ sget h t = Some n).
  { unfold g2. cbn [on_node on_found gr_found]. rewrite nth_upd, Nat.eqb_refl, Ff. destruct (nth_error (gr_found g) c) as [t|] eqn:T; [|apply nth_error_None in T; lia].
    eexists. split; [reflexivity|]. apply (dget_dset_same String.eqb String.eqb_eq). }
  destruct T2 as (t & T2 & T3). destruct (Ht code ltac:(destruct Hc as [->|Hc]; [now left|now right])) as (o & Eo). destruct (Ho code o Eo) as (x & X & C & Nx & Hp). exists o, x.
  assert (U : forall esv l, use_obj g2 o esv (pairs l) = USent c (asks code esv l) [VStr h; VInt p]).
  { intros esv l. unfold use_obj. rewrite O2, X, create_pairs, Nx, N2, C. reflexivity. }
  split; [unfold found_obj; rewrite T2, T3, N2; exact Eo|]. split; [now rewrite O2|]. split; [exact U|].
  intros pc Hpc. destruct (Hp pc Hpc) as (q & z & Q1 & Q2 & Q3 & Q4). exists q. split; [exact Q1|]. intros esv d. unfold use_prop. rewrite P2, Q2, Q4, Q3. exact (U esv [mkprop pc d]).
Qed.
Lemma L_C121_quiet : forall std c a codes cbs g, concat cbs = [] -> exists g', heard std c a codes cbs g = (g', [], true).
Proof. intros std c a codes cbs g E. unfold heard. destruct (new_remote std _ codes g) as [g1 n]. rewrite E. eexists. reflexivity. Qed.
Lemma L_C121_moved_refuted : forall k ops o n1 n2 esv l, proper (ops ++ [GAddObj n2 o]) -> node_of o ops = Some n1 -> n1 <> n2 ->
  let g := g_run (g_empty k) ops in let g' := g_run (g_empty k) (ops ++ [GAddObj n2 o]) in
  nth_error (gr_nodes g') n1 = nth_error (gr_nodes g) n1 /\ gr_found g' = gr_found g /\
  (not_found ops n2 -> use_obj g' o esv (pairs l) = URaise) /\
  (forall c a, found_at ops n2 c a -> exists code, use_obj g' o esv (pairs l) = USent c (asks code esv l) a).
Proof.
  intros k ops o n1 n2 esv l H Hn Ne g g'. pose proof (proper_snoc _ _ H) as (H0 & U). unfold usable in U. destruct (made ops) as [[mp mo] mn] eqn:M.
  assert (Lo : o < snd (fst (made (ops ++ [GAddObj n2 o])))) by (rewrite made_snoc, M; cbn; lia).
  assert (No : node_of o (ops ++ [GAddObj n2 o]) = Some n2) by (unfold node_of; rewrite over_snoc, Nat.eqb_refl; reflexivity).
  assert (St : g' = g_step g (GAddObj n2 o)) by (unfold g', g, g_run; now rewrite fold_left_app).
  split; [|split].
  - rewrite St. cbn [g_step]. destruct (nth_error (gr_objs g) o); [|reflexivity]. cbn [on_node on_obj gr_nodes]. rewrite nth_upd. replace (n2 =? n1) with false by (symmetry; apply Nat.eqb_neq; congruence). reflexivity.
  - rewrite St. cbn [g_step]. destruct (nth_error (gr_objs g) o); reflexivity.
  - split.
    + intros D. apply (proj1 (L_C121_detached_refuted k _ H) o esv l Lo). right. exists n2. split; [exact No|]. unfold not_found, is_remote, finder in *. rewrite !over_snoc. exact D.
    + intros c a (R & F & A). destruct (L_C121_goes k _ o n2 c a esv l H Lo No) as (code & _ & E).
      * unfold found_at, is_remote, finder, address_of in *. rewrite !over_snoc. repeat split; assumption.
      * exists code. exact E.
Qed.
Lemma L_C121_same : forall w bs tr s ctl n o esv l h p, ln_ctl s = Some ctl -> n_addr n = Some (h, p) ->
  let '(s', tr', r) := object_send w tr s n o esv (pairs l) in
  exists m1 to, d_send w bs tr s (asks (o_code o) esv l) (TNode [VStr h; VInt p]) = (s', tr', m1, to, lift r).
Proof.
  intros w bs tr s ctl n o esv l h p C A. unfold object_send. rewrite create_pairs.
  assert (D : ctl_send w tr s (asks (o_code o) esv l) (DNode n) = ctl_send w tr s (asks (o_code o) esv l) (DTup (h, 3610%Z))).
  { unfold ctl_send. f_equal. unfold dest_addr, node_ip, node_port. rewrite A. reflexivity. }
  rewrite D. pose proof (d_send_same w bs tr s (asks (o_code o) esv l) (TNode [VStr h; VInt p]) ctl (VStr h) h 3610%Z C eq_refl eq_refl ltac:(lia)) as S.
  destruct (ctl_send w tr s (asks (o_code o) esv l) (DTup (h, 3610%Z))) as [[[s' tr'] m'] r]. destruct S as (m1 & to & S & _). exists m1, to. exact S.
Qed.

(** ** The tables of the controllers *)
Lemma L_C121_table : forall k ops c h, proper ops -> c < k ->
  exists t, nth_error (gr_found (g_run (g_empty k) ops)) c = Some t /\ sget h t = registered c h ops.
Proof.
  intros k ops c h H L. induction ops as [|op ops IH] using rev_ind.
  - exists []. split; [|reflexivity]. cbn [g_run fold_left g_empty gr_found]. rewrite nth_error_repeat by exact L. reflexivity.
  - apply proper_snoc in H. destruct H as (H & U). destruct (IH H) as (t & Nt & St). pose proof (tracks_run k ops H) as T. unfold g_run in *. rewrite fold_left_app. cbn [fold_left].
    set (g := fold_left g_step ops (g_empty k)) in *. unfold registered in *. rewrite over_snoc.
    destruct op as [pc|oc|r v|o p|n o|o oc|n v|i n]; cbn [g_step]; try (exists t; split; [exact Nt|exact St]).
    + destruct (nth_error (gr_props g) p); exists t; split; assumption.
    + destruct (nth_error (gr_objs g) o); exists t; split; assumption.
    + destruct T as [M _ _ N _ _ _ _ _]. unfold usable in U. rewrite M in U. destruct (nth_error (gr_nodes g) n) as [q|] eqn:Q; [|apply nth_error_None in Q; lia].
      destruct (N n q Q) as (A & B & C). rewrite A. destruct (gn_remote q); cbn [negb on_node gr_found].
      2:{ destruct (i =? c); exists t; split; assumption. }
      unfold a_ip. rewrite C.
      assert (X : forall s, exists t0, nth_error (upd i (sset s n) (gr_found g)) c = Some t0 /\ sget h t0 = match (if i =? c then if String.eqb s h then Some n else None else None) with Some x => Some x | None => over (fun b op => match op with
  | GRegister i n =>
      if i =? c then
        match is_remote n b, address_of n b with
        | Some true, Some (VStr h1, _) => if String.eqb h1 h then Some n else None
        | Some true, None => if String.eqb "" h then Some n else None
        | _, _ => None
        end
      else None
  | _ => None end) ops end).
      { intros s. rewrite nth_upd. destruct (i =? c) eqn:E; [|exists t; split; assumption]. rewrite Nt. cbn [option_map]. exists (sset s n t). split; [reflexivity|].
        destruct (String.eqb_spec s h) as [->|D]; [apply (dget_dset_same String.eqb String.eqb_eq)|]. rewrite (dget_dset_other String.eqb String.eqb_eq) by congruence. exact St. }
      destruct (address_of n ops) as [[x y]|]; cbn [length Nat.eqb negb nth]; [|exact (X ""%string)].
      destruct x; cbn [on_found gr_found]; try apply X; destruct (i =? c); exists t; split; assumption.
Qed.

Lemma L_C121_found_run : forall std k ops c h p codes cbs g' r, proper ops -> c < k -> heard std c (h, p) codes cbs (g_run (g_empty k) ops) = (g', r, true) ->
  forall code, code = 0x0EF001%Z \/ In code codes -> exists o, found_obj g' c h code = Some o /\
    (forall esv l, use_obj g' o esv (pairs l) = USent c (asks code esv l) [VStr h; VInt p]).
Proof.
  intros std k ops c h p codes cbs g' r H L E code I. destruct (L_C121_table k ops c h H L) as (t & Nt & _).
  destruct (L_C121_found std c h p codes cbs _ g' r (proj1 (nth_error_Some _ c) ltac:(rewrite Nt; discriminate)) E code I) as (o & x & F & _ & U & _). exists o. split; assumption.
Qed.
