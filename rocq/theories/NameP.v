(** Lemmas about the names of standard objects and their properties (C118). *)
From Verif Require Import PyBase BytesM EsvM MsgM PropM ObjM DbData DbM NameData NameM SpecObj SpecMap SpecReq SpecDb SpecName
  NodeM LocalM CtrlM SpecWire SpecNode SpecLocal SpecCtrl LogM BenchM OutM SpecLog SpecBench SpecOut DictP BytesP ObjP MapP ReqP DbP CtrlP OutP.
Require Import ZifyBool.

(** ** The two transcriptions of the tables belong together *)
Definition aligned (e : std_entry) (n : name_entry) : Prop :=
  let '(_, g, c, rows) := e in g = fst (fst n) /\ c = snd (fst n) /\ map fst rows = map fst (snd n).
Fixpoint zlist_eqb (a b : list Z) : bool :=
  match a, b with [], [] => true | x :: r, y :: s => (x =? y) && zlist_eqb r s | _, _ => false end.
Lemma zlist_eqb_eq a : forall b, zlist_eqb a b = true -> a = b.
Proof. induction a as [|x a IH]; intros [|y b] H; try discriminate; [reflexivity|]. cbn in H. apply andb_true_iff in H as (H1 & H2). f_equal; [lia|exact (IH _ H2)]. Qed.
Fixpoint alignedb (l : list std_entry) (m : list name_entry) : bool :=
  match l, m with
  | [], [] => true
  | (_, g, c, rows) :: l, n :: m => (g =? fst (fst n)) && (c =? snd (fst n)) && zlist_eqb (map fst rows) (map fst (snd n)) && alignedb l m
  | _, _ => false
  end.
Lemma alignedb_ok l : forall m, alignedb l m = true -> Forall2 aligned l m.
Proof.
  induction l as [|[[[n g] c] rows] l IH]; intros [|y m] H; try discriminate; [constructor|]. cbn in H. rewrite !andb_true_iff in H. destruct H as (((H1 & H2) & H3) & H4).
  constructor; [|exact (IH _ H4)]. cbn. split; [lia|]. split; [lia|]. apply zlist_eqb_eq, H3.
Qed.
Lemma tables_aligned : Forall2 aligned (scsl_table ++ mra_table) (scsl_names ++ mra_names) /\ Forall2 aligned scsl_table scsl_names /\ Forall2 aligned mra_table mra_names.
Proof. split; [|split]; apply alignedb_ok; vm_compute; reflexivity. Qed.

Lemma find_rev_pairs {A B} (R : A -> B -> Prop) f g : (forall a b, R a b -> f a = g b) -> forall l m, Forall2 R l m ->
  find (fun e => f (fst e)) (rev (combine l m)) = match find f (rev l), find g (rev m) with Some a, Some b => Some (a, b) | _, _ => None end.
Proof.
  intros H. induction l as [|a l IH] using rev_ind; intros m F; [inversion F; reflexivity|].
  apply Forall2_app_inv_l in F as (m1 & m2 & F1 & F2 & ->). inversion F2 as [|? b ? ? Rab F3]; subst. inversion F3; subst.
  assert (L : forall (x : list A) (y : list B), Forall2 R x y -> combine (x ++ [a]) (y ++ [b]) = combine x y ++ [(a, b)]) by (induction 1; cbn; [reflexivity|now f_equal]).
  rewrite (L _ _ F1), !rev_app_distr. cbn [rev app find fst]. rewrite (H _ _ Rab). destruct (g b); [reflexivity|]. exact (IH _ F1).
Qed.
Lemma forall2_combine_app {A B} (l1 l2 : list A) (m1 m2 : list B) : length l1 = length m1 -> combine (l1 ++ l2) (m1 ++ m2) = combine l1 m1 ++ combine l2 m2.
Proof. revert m1. induction l1 as [|a l1 IH]; intros [|b m1] H; try discriminate; [reflexivity|]. cbn. f_equal. apply IH. now injection H. Qed.

(** ** Objects with the fields of their properties *)
Definition wfl (x : lobj) : Prop :=
  NoDup (dkeys (o_props (lo_obj x))) /\ (forall k p, zget k (o_props (lo_obj x)) = Some p -> op_code p = k) /\
  dkeys (lo_lab x) = dkeys (o_props (lo_obj x)).
Definition desc (x : lobj) (k : Z) : option plabel := match zget k (lo_lab x) with Some l => l | None => None end.

Lemma keys_of_dset {V W} k (v : V) (w : W) d e : dkeys d = dkeys e -> dkeys (zset k v d) = dkeys (zset k w e).
Proof.
  revert e. induction d as [|[a x] d IH]; intros [|[b y] e] H; try discriminate; [reflexivity|]. cbn in H. injection H as -> H. cbn.
  destruct (k =? b); cbn; [f_equal; exact H|f_equal; exact (IH _ H)].
Qed.
Lemma keys_dset_in {V} k (v : V) d : In k (dkeys d) -> dkeys (zset k v d) = dkeys d.
Proof.
  induction d as [|[a x] d IH]; intros H; [destruct H|]. cbn. destruct (Z.eqb_spec k a) as [->|N]; [reflexivity|]. cbn. f_equal. apply IH. destruct H as [H|H]; [cbn in H; congruence|exact H].
Qed.
Lemma keys_get {V W} k (d : list (Z * V)) (e : list (Z * W)) : dkeys d = dkeys e -> (zget k d = None <-> zget k e = None).
Proof. intros H. rewrite !(dget_none Z.eqb zeqb_eq). now rewrite H. Qed.
Lemma desc_says x k : wfl x -> says x k (desc x k).
Proof.
  intros (N & C & K). unfold desc, says, prop_name, prop_typ, prop_size, prop_label, get_property. pose proof (keys_get k _ _ K) as G.
  destruct (zget k (lo_lab x)) as [[[[n t] z]|]|].
  - destruct (zget k (o_props (lo_obj x))); [repeat split|destruct G as (_ & G); specialize (G eq_refl); discriminate].
  - destruct (zget k (o_props (lo_obj x))); repeat split.
  - destruct G as (G & _). rewrite (G eq_refl). repeat split.
Qed.
(** Changes of values only. *)
Definition values_changed (o o' : obj) : Prop :=
  dkeys (o_props o') = dkeys (o_props o) /\
  (forall k p', zget k (o_props o') = Some p' -> exists p, zget k (o_props o) = Some p /\ op_code p' = op_code p /\ op_get p' = op_get p) /\
  o_code o' = o_code o /\ o_name o' = o_name o /\ o_handler o' = o_handler o /\ o_cls o' = o_cls o.
Lemma vc_refl o : values_changed o o.
Proof. unfold values_changed. split; [reflexivity|]. split; [intros k p H; exists p; auto|auto]. Qed.
Lemma vc_trans a b c : values_changed a b -> values_changed b c -> values_changed a c.
Proof.
  intros (K & G & A1 & A2 & A3 & A4) (K' & G' & B1 & B2 & B3 & B4). split; [congruence|]. split; [|repeat split; congruence].
  intros k p H. destruct (G' k p H) as (q & Hq & E & E'). destruct (G k q Hq) as (r & Hr & F & F'). exists r. split; [exact Hr|]. split; congruence.
Qed.
Lemma vc_data c d o : values_changed o (fst (set_property_data c d o)).
Proof.
  unfold set_property_data. destruct (get_property c o) as [p|] eqn:G; [|apply vc_refl]. unfold get_property in G. cbn [fst].
  split; [|split; [|auto]].
  - cbn [o_props set_o_props]. apply keys_dset_in. apply (dget_in Z.eqb zeqb_eq) in G. apply in_map_iff. exists (c, p). auto.
  - cbn [o_props set_o_props]. intros k q. rewrite zget_zset. destruct (Z.eqb_spec k c) as [->|N].
    + intros [= <-]. exists p. split; [exact G|]. destruct p; split; reflexivity.
    + intros H. exists q. auto.
Qed.
Lemma vc_map c m o o' r : set_property_map c m o = (o', r) -> values_changed o o'.
Proof.
  unfold set_property_map. destruct (negb (has_property c o)); [intros [= <- _]; apply vc_refl|].
  destruct (bytes_of (zlen m :: m)) as [a|]; [|intros [= <- _]; apply vc_refl].
  destruct (is_format1 (zlen m)).
  - pose proof (vc_data c a o) as V. destruct (set_property_data c a o) as [y b]. intros [= <- _]. exact V.
  - destruct (bytes_of (Z.of_nat PROPERTYMAP_FORMAT2_MAP_SIZE :: map2_encode m)) as [a2|]; [|intros [= <- _]; apply vc_refl].
    pose proof (vc_data c a2 o) as V. destruct (set_property_data c a2 o) as [y b]. intros [= <- _]. exact V.
Qed.
Lemma vc_update (PS : PySet) o o' r : update_property_maps o = (o', r) -> values_changed o o'.
Proof.
  unfold update_property_maps.
  destruct (set_property_map ANNO_PROPERTY_MAP _ o) as [o1 r1] eqn:E1. apply vc_map in E1.
  destruct r1 as [[]|]; [|intros [= <- _]; exact E1|intros [= <- _]; exact E1].
  destruct (set_property_map GET_PROPERTY_MAP _ _) as [o2 r2] eqn:E2. apply vc_map in E2. pose proof (vc_trans _ _ _ E1 E2) as E12.
  destruct r2 as [[]|]; [|intros [= <- _]; exact E12|intros [= <- _]; exact E12].
  intros E3. apply vc_map in E3. exact (vc_trans _ _ _ E12 E3).
Qed.
Lemma vc_loop (f : obj -> prop -> obj * res (prop * bool)) : forall l o o' r, o_handler o = HSuper ->
  (forall o mp o' r, o_handler o = HSuper -> f o mp = (o', r) -> values_changed o o') -> do_loop f o l = (o', r) -> values_changed o o'.
Proof.
  induction l as [|mp l IH]; intros o o' r H F; cbn [do_loop]; [intros [= <- _]; apply vc_refl|].
  destruct (f o mp) as [o1 [[rp acc]|e]] eqn:E; pose proof (F _ _ _ _ H E) as V; [|intros [= <- _]; exact V].
  destruct (do_loop f o1 l) as [o2 r2] eqn:E2. assert (V2 : values_changed o1 o2). { apply (IH o1 o2 r2); [|exact F|exact E2]. destruct V as (_ & _ & _ & _ & V & _). congruence. }
  destruct r2 as [[rps n]|e2]; intros [= <- _]; exact (vc_trans _ _ _ V V2).
Qed.
Lemma vc_write o mp o' r : o_handler o = HSuper -> do_write o mp = (o', r) -> values_changed o o'.
Proof.
  intros H. unfold do_write. destruct (get_property (p_code mp) o) as [p|]; [|intros [= <- _]; apply vc_refl]. unfold write_requested. rewrite H.
  destruct (match get_property (op_code p) o with None => false | Some q => is_write_enabled q end); intros [= <- _]; [apply vc_data|apply vc_refl].
Qed.
Lemma vc_read o mp o' r : o_handler o = HSuper -> do_read o mp = (o', r) -> values_changed o o'.
Proof.
  intros H. unfold do_read. destruct (get_property (p_code mp) o) as [p|]; [|intros [= <- _]; apply vc_refl]. unfold read_requested. rewrite H. cbn.
  destruct (match get_property (op_code p) o with None => false | Some q => is_read_enabled q end); intros [= <- _]; apply vc_refl.
Qed.
Lemma vc_read_wr o mp o' r : o_handler o = HSuper -> do_read_wr o mp = (o', r) -> values_changed o o'.
Proof.
  intros H. unfold do_read_wr, read_requested. rewrite H. destruct (get_property (p_code mp) o) as [p|]; [|intros [= <- _]; apply vc_refl].
  destruct (match get_property (op_code p) o with None => false | Some q => is_read_enabled q end); intros [= <- _]; apply vc_refl.
Qed.
Lemma vc_msg o m o' t r : o_handler o = HSuper -> obj_message_received o m = (o', t, r) -> values_changed o o'.
Proof.
  intros H. unfold obj_message_received. destruct (negb (is_request (m_ESV m))); [intros [= <- _ _]; apply vc_refl|]. rewrite H. cbv zeta.
  assert (P : forall o mp o' r, o_handler o = HSuper -> do_plain (m_ESV m) o mp = (o', r) -> values_changed o o').
  { intros x mp x' q Hx. unfold do_plain. destruct (is_read_request (m_ESV m)); [apply (vc_read _ _ _ _ Hx)|]. destruct (is_write_request (m_ESV m)); [apply (vc_write _ _ _ _ Hx)|].
    intros [= <- _]. apply vc_refl. }
  destruct (is_write_read_request (m_ESV m)).
  - destruct (do_loop do_write o (m_sets m)) as [o1 [[sets n]|e]] eqn:E1; pose proof (vc_loop _ _ _ _ _ H vc_write E1) as V1; [|intros [= <- _ _]; exact V1].
    assert (H1 : o_handler o1 = HSuper) by (destruct V1 as (_ & _ & _ & _ & V1 & _); congruence).
    destruct (do_loop do_read_wr o1 (m_gets m)) as [o2 [[gets k]|e]] eqn:E2; pose proof (vc_trans _ _ _ V1 (vc_loop _ _ _ _ _ H1 vc_read_wr E2)) as V2; [|intros [= <- _ _]; exact V2].
    destruct (response_esv _ _); intros [= <- _ _]; exact V2.
  - destruct (do_loop (do_plain (m_ESV m)) o (m_props m)) as [o1 [[ps n]|e]] eqn:E1; pose proof (vc_loop _ _ _ _ _ H P E1) as V1; [|intros [= <- _ _]; exact V1].
    destruct (response_esv _ _); intros [= <- _ _]; exact V1.
Qed.
Lemma wfl_values o x : wfl x -> values_changed (lo_obj x) o -> wfl (with_obj o x) /\ forall k, desc (with_obj o x) k = desc x k.
Proof.
  intros (N & C & K) (V & G & _). split; [|reflexivity]. unfold wfl. cbn [lo_obj lo_lab with_obj]. rewrite V. split; [exact N|]. split; [|exact K].
  intros k p H. destruct (G k p H) as (q & Hq & E & _). rewrite E. exact (C k q Hq).
Qed.

(** Adding a property. *)
Lemma wfl_put p l x o : wfl x -> o_props o = zset (op_code p) p (o_props (lo_obj x)) -> wfl (mklobj o (put_label p l (lo_lab x))) /\
  forall k, desc (mklobj o (put_label p l (lo_lab x))) k = if k =? op_code p then l else desc x k.
Proof.
  intros (N & C & K) E. split.
  - unfold wfl. cbn [lo_obj lo_lab]. rewrite E. split; [apply (nodup_dset Z.eqb zeqb_eq), N|]. split; [|apply keys_of_dset, K].
    intros k q. rewrite zget_zset. destruct (Z.eqb_spec k (op_code p)) as [->|]; [intros [= <-]; reflexivity|apply C].
  - intros k. unfold desc, put_label. cbn [lo_lab]. rewrite zget_zset. destruct (k =? op_code p); reflexivity.
Qed.
Lemma wfl_add_base p l x : wfl x -> wfl (l_add_base p l x) /\ forall k, desc (l_add_base p l x) k = if k =? op_code p then l else desc x k.
Proof. intros W. apply (wfl_put p l x _ W). reflexivity. Qed.
Lemma wfl_add_super (PS : PySet) p l x x' r : wfl x -> l_add_super p l x = (x', r) ->
  add_property_super (Some p) (lo_obj x) = (lo_obj x', r) /\ wfl x' /\ forall k, desc x' k = if k =? op_code p then l else desc x k.
Proof.
  intros W. unfold l_add_super. destruct (add_property_super (Some p) (lo_obj x)) as [o q] eqn:E. intros [= <- <-]. split; [reflexivity|].
  revert E. unfold add_property_super. cbn [add_property_base]. set (o1 := set_o_props _ (lo_obj x)). destruct (wfl_put p l x o1 W eq_refl) as (W1 & D1).
  destruct (update_property_maps o1) as [o2 r2] eqn:U. intros E. apply vc_update in U. assert (o2 = o) as -> by (destruct r2; congruence). destruct (wfl_values o _ W1 U) as (W2 & _).
  split; [exact W2|]. exact D1.
Qed.
(** The label that a list of properties gives to a code. *)
Definition lastl (k : Z) (ps : list (oprop * option plabel)) : option (option plabel) :=
  option_map snd (find (fun e => op_code (fst e) =? k) (rev ps)).
Lemma lastl_cons k p l ps : lastl k ((p, l) :: ps) = match lastl k ps with Some q => Some q | None => if op_code p =? k then Some l else None end.
Proof.
  unfold lastl. cbn [rev]. rewrite find_app. destruct (find _ (rev ps)); [reflexivity|]. cbn [find fst]. destruct (op_code p =? k); reflexivity.
Qed.
Definition over (a : option (option plabel)) (b : option plabel) : option plabel := match a with Some l => l | None => b end.
Lemma wfl_add_all (PS : PySet) ps : forall x x' r, wfl x -> l_add_all ps x = (x', r) ->
  add_all (map fst ps) (lo_obj x) = (lo_obj x', r) /\ wfl x' /\ (forall b, r = Ok b -> forall k, desc x' k = over (lastl k ps) (desc x k)).
Proof.
  induction ps as [|[p l] ps IH]; intros x x' r W; cbn [l_add_all map fst add_all].
  - intros [= <- <-]. split; [reflexivity|]. split; [exact W|]. reflexivity.
  - destruct (l_add_super p l x) as [x1 [b|e]] eqn:E; destruct (wfl_add_super PS _ _ _ _ _ W E) as (A & W1 & D1); rewrite A.
    + intros R. destruct (IH _ _ _ W1 R) as (A2 & W2 & D2). split; [exact A2|]. split; [exact W2|]. intros c Hc k. rewrite (D2 c Hc), lastl_cons, D1.
      destruct (lastl k ps) as [q|]; cbn [over]; [reflexivity|]. rewrite (Z.eqb_sym k). destruct (op_code p =? k); reflexivity.
    + intros [= <- <-]. split; [reflexivity|]. split; [exact W1|]. discriminate.
Qed.
Lemma l_props_fst x : map fst (l_props x) = dvals (o_props (lo_obj x)).
Proof. unfold l_props, dvals. rewrite map_map. apply map_ext. reflexivity. Qed.
Lemma lastl_props x k : wfl x -> lastl k (l_props x) = match zget k (o_props (lo_obj x)) with Some _ => Some (desc x k) | None => None end.
Proof.
  intros (N & C & _). unfold l_props.
  assert (C' : forall a p, In (a, p) (o_props (lo_obj x)) -> op_code p = a) by (intros a p H; apply C, (in_dget Z.eqb zeqb_eq); assumption). clear C. revert N C'.
  fold (desc x). induction (o_props (lo_obj x)) as [|[a p] t IH]; intros N C; [reflexivity|]. cbn [map fst snd]. rewrite lastl_cons.
  assert (N' := N). cbn [dkeys map fst] in N. inversion N as [|? ? Na Nt]; subst. rewrite IH; [|exact Nt|intros b q Hq; apply C; now right].
  rewrite (C a p (or_introl eq_refl)). cbn [dget]. rewrite (Z.eqb_sym k). destruct (Z.eqb_spec a k) as [->|_]; [|destruct (zget k t); reflexivity].
  apply (proj2 (dget_none Z.eqb zeqb_eq k t)) in Na. rewrite Na. reflexivity.
Qed.
Lemma wfl_copy_std (PS : PySet) s x x' r : wfl x -> (forall src, s = Some src -> wfl src) -> l_copy_std s x = (x', r) ->
  copy_std (option_map lo_obj s) (lo_obj x) = (lo_obj x', r) /\ wfl x' /\
  (r = Ok tt -> forall k, desc x' k = match s with Some src => match zget k (o_props (lo_obj src)) with Some _ => desc src k | None => desc x k end | None => desc x k end).
Proof.
  intros W Hs. destruct s as [src|]; cbn [l_copy_std option_map copy_std].
  2:{ intros [= <- <-]. split; [reflexivity|]. split; [exact W|]. reflexivity. }
  specialize (Hs src eq_refl). set (y := with_obj _ x). assert (W1 : wfl y) by exact W.
  destruct (l_add_all (l_props src) y) as [x1 r1] eqn:E. destruct (wfl_add_all PS _ _ _ _ W1 E) as (A & W2 & D). rewrite l_props_fst in A. cbn [lo_obj with_obj y] in A. unfold set_object_properties. rewrite A.
  destruct r1 as [b|e]; intros [= <- <-]; (split; [reflexivity|]); (split; [exact W2|]); [|discriminate].
  intros _ k. rewrite (D b eq_refl k), (lastl_props src k Hs). destruct (zget k (o_props (lo_obj src))); reflexivity.
Qed.

(** ** The objects of the tables *)
Lemma build_fold rl : forall x, wfl x ->
  let y := fold_left (fun x rl => l_add_base (row_property (fst rl)) (Some (snd (snd rl))) x) rl x in
  lo_obj y = fold_left (fun o r => fst (add_property_base (Some (row_property r)) o)) (map fst rl) (lo_obj x) /\ wfl y /\
  forall k, desc y k = match find (fun e : row * name_row => fst (fst e) =? k) (rev rl) with Some e => Some (snd (snd e)) | None => desc x k end.
Proof.
  induction rl as [|[r n] rl IH]; intros x W; cbv zeta; [split; [reflexivity|]; split; [exact W|reflexivity]|].
  cbn [fold_left map fst snd]. destruct (wfl_add_base (row_property r) (Some (snd n)) x W) as (W1 & D1). destruct (IH _ W1) as (A & W2 & D2). split; [exact A|]. split; [exact W2|].
  intros k. rewrite D2. cbn [rev]. rewrite find_app. destruct (find _ (rev rl)); [reflexivity|]. rewrite D1. cbn [find fst snd].
  assert (E : op_code (row_property r) = fst r) by (destruct r as [c [[g s] a]]; reflexivity). rewrite E, (Z.eqb_sym k). destruct (fst r =? k); reflexivity.
Qed.
Lemma l_build_ok e n : aligned e n -> lo_obj (l_build (e, n)) = build_object e /\ wfl (l_build (e, n)) /\
  forall k, desc (l_build (e, n)) k = option_map snd (find (fun r => fst r =? k) (rev (snd n))).
Proof.
  destruct e as [[[name g] c] rows], n as [[g' c'] labs]. cbn [aligned snd]. intros (_ & _ & M). unfold l_build, build_object.
  assert (L : length rows = length labs) by (apply (f_equal (@length Z)) in M; rewrite !map_length in M; exact M).
  assert (W : wfl (mklobj (std_object name g c) [])) by (split; [constructor|split; [discriminate|reflexivity]]).
  destruct (build_fold (combine rows labs) _ W) as (A & W' & D). split.
  - rewrite A. cbn [lo_obj]. f_equal. clear - L. revert labs L. induction rows as [|r rows IH]; intros [|l labs] L; try discriminate; [reflexivity|]. cbn. f_equal. apply IH. now injection L.
  - split; [exact W'|]. intros k. rewrite D. assert (F : Forall2 (fun (r : row) (l : name_row) => fst r = fst l) rows labs).
    { clear - M. revert labs M. induction rows as [|r rows IH]; intros [|l labs] M; try discriminate; [constructor|]. cbn in M. constructor; [congruence|apply IH; congruence]. }
    rewrite (find_rev_pairs (fun (r : row) (l : name_row) => fst r = fst l) (fun r => fst r =? k) (fun l => fst l =? k)); [|intros a b ->; reflexivity|exact F].
    assert (S2 : find (fun r : row => fst r =? k) (rev rows) = None <-> find (fun l : name_row => fst l =? k) (rev labs) = None).
    { assert (FR : Forall2 (fun (r : row) (l : name_row) => fst r = fst l) (rev rows) (rev labs)).
      { clear - F. induction F as [|r l rows labs E F IH]; [constructor|]. cbn. apply Forall2_app; [exact IH|]. constructor; [exact E|constructor]. }
      clear - FR. revert FR. generalize (rev rows) (rev labs). clear. induction 1 as [|r l u v E F IH]; [tauto|]. cbn. rewrite E. destruct (fst l =? k); [split; discriminate|exact IH]. }
    destruct (find _ (rev rows)) as [a|], (find _ (rev labs)) as [b|]; try reflexivity.
    destruct S2 as (S2 & _). specialize (S2 eq_refl). discriminate.
Qed.
Lemma tables_length : length scsl_table = length scsl_names.
Proof. vm_compute. reflexivity. Qed.
Lemma l_table_get g c t : forall d,
  kget (g, c) (fold_left (fun d e => kset (entry_key (fst e)) (l_build e) d) t d)
  = match find (fun e => entry_is g c (fst e)) (rev t) with Some e => Some (l_build e) | None => kget (g, c) d end.
Proof.
  induction t as [|e t IH]; intros d; [reflexivity|]. cbn [fold_left rev]. rewrite IH, find_app.
  destruct (find (fun e => entry_is g c (fst e)) (rev t)); [reflexivity|]. rewrite kget_kset. cbn [find].
  destruct e as [[[[n grp] cls] rows] m]. cbn [entry_key entry_is fst]. unfold key_eqb. cbn [fst snd].
  destruct ((g =? grp) && (c =? cls)); reflexivity.
Qed.
Lemma l_table_nodup t : NoDup (dkeys (l_table t)).
Proof.
  unfold l_table. assert (G : forall d, NoDup (dkeys d) -> NoDup (dkeys (fold_left (fun d e => kset (entry_key (fst e)) (l_build e) d) t d))).
  { induction t as [|e t IH]; intros d N; [assumption|]. cbn [fold_left]. apply IH. now apply (nodup_dset key_eqb key_eqb_eq). }
  apply G. constructor.
Qed.
Definition name_is (g c : Z) (e : name_entry) : bool := (g =? fst (fst e)) && (c =? snd (fst e)).
Definition full_of (g c : Z) : option (std_entry * name_entry) :=
  match std_entry_of g c, find (name_is g c) (rev (scsl_names ++ mra_names)) with Some a, Some b => Some (a, b) | _, _ => None end.
Lemma aligned_is g c e n : aligned e n -> entry_is g c e = name_is g c n.
Proof. destruct e as [[[nm a] b] rows]. cbn. intros (-> & -> & _). reflexivity. Qed.
Lemma l_lookup g c : kget (g, c) l_std_objects = option_map l_build (full_of g c).
Proof.
  unfold l_std_objects. rewrite !(dget_dupdate key_eqb key_eqb_eq). rewrite !kget_rev_nodup by apply l_table_nodup. unfold l_table. rewrite !l_table_get.
  destruct tables_aligned as (A & A1 & A2). unfold full_of, std_entry_of.
  rewrite <- (find_rev_pairs aligned (entry_is g c) (name_is g c) (aligned_is g c) _ _ A).
  rewrite forall2_combine_app by exact (tables_length). rewrite rev_app_distr, find_app.
  destruct (find _ (rev (combine mra_table mra_names))); [reflexivity|]. destruct (find _ (rev (combine scsl_table scsl_names))); reflexivity.
Qed.
Definition class_desc (g c k : Z) : option plabel := option_map snd (find (fun r => fst r =? k) (rev (name_rows g c))).
Lemma described_class g c k : described g c k = match class_desc g c k with Some l => Some l | None => class_desc 0 0 k end.
Proof. unfold described, class_desc. rewrite rev_app_distr, find_app. destruct (find _ (rev (name_rows g c))); reflexivity. Qed.
Lemma combine_rel {A B} (R : A -> B -> Prop) l m a b : Forall2 R l m -> In (a, b) (combine l m) -> R a b.
Proof. induction 1 as [|x y l m H F IH]; [intros []|]. cbn. intros [E|I]; [congruence|exact (IH I)]. Qed.
Lemma full_is g c : match full_of g c with
  | Some (e, n) => std_entry_of g c = Some e /\ aligned e n /\ snd n = name_rows g c
  | None => std_entry_of g c = None /\ name_rows g c = [] end.
Proof.
  destruct tables_aligned as (A & _). pose proof (find_rev_pairs aligned (entry_is g c) (name_is g c) (aligned_is g c) _ _ A) as F.
  fold (std_entry_of g c) in F. change (find (fun e => entry_is g c (fst e)) (rev (combine (scsl_table ++ mra_table) (scsl_names ++ mra_names))) = full_of g c) in F.
  assert (N : name_rows g c = match find (name_is g c) (rev (scsl_names ++ mra_names)) with Some e => snd e | None => [] end) by reflexivity.
  destruct (full_of g c) as [[e n]|] eqn:E.
  - apply find_some in F as (I & _). apply in_rev in I. rewrite N. unfold full_of in E. destruct (std_entry_of g c) as [e'|]; [|discriminate].
    destruct (find (name_is g c) _) as [n'|]; [|discriminate]. assert (e' = e /\ n' = n) as (-> & ->) by (split; congruence). split; [reflexivity|]. split; [|reflexivity].
    exact (combine_rel aligned _ _ _ _ A I).
  - rewrite N. assert (S2 : std_entry_of g c = None <-> find (name_is g c) (rev (scsl_names ++ mra_names)) = None).
    { assert (FR : forall l m, Forall2 aligned l m -> find (entry_is g c) l = None <-> find (name_is g c) m = None).
      { induction 1 as [|a b l m R F' IH]; [tauto|]. cbn [find]. rewrite (aligned_is g c _ _ R). destruct (name_is g c b); [split; discriminate|exact IH]. }
      apply FR. clear - A. revert A. generalize (scsl_table ++ mra_table) (scsl_names ++ mra_names). induction 1 as [|a b l m R F IH]; [constructor|]. cbn. apply Forall2_app; [exact IH|]. constructor; [exact R|constructor]. }
    unfold full_of in E. destruct (std_entry_of g c) as [e'|], (find (name_is g c) _) as [n'|]; try discriminate.
    + destruct S2 as (_ & S2). specialize (S2 eq_refl). discriminate.
    + destruct S2 as (S2 & _). specialize (S2 eq_refl). discriminate.
    + split; reflexivity.
Qed.
Lemma rows_same (rows : list row) (labs : list name_row) k : map fst rows = map fst labs -> row_for k rows = None <-> find (fun r => fst r =? k) (rev labs) = None.
Proof.
  intros M. unfold row_for. assert (M' : map fst (rev rows) = map fst (rev labs)) by (rewrite !map_rev; now f_equal). clear M. revert M'. generalize (rev labs).
  induction (rev rows) as [|r l IH]; intros [|n m] M; try discriminate; [tauto|]. cbn in M. cbn [find]. assert (fst r = fst n) as -> by congruence. destruct (fst n =? k); [split; discriminate|]. apply IH. congruence.
Qed.
Lemma copy_class (PS : PySet) g c x x' r : wfl x -> l_copy_std (option_map l_build (full_of g c)) x = (x', r) ->
  copy_std (option_map build_object (std_entry_of g c)) (lo_obj x) = (lo_obj x', r) /\ wfl x' /\
  (r = Ok tt -> forall k, desc x' k = match class_desc g c k with Some l => Some l | None => desc x k end).
Proof.
  intros W. pose proof (full_is g c) as F. unfold class_desc. destruct (full_of g c) as [[e n]|]; cbn [option_map].
  - destruct F as (-> & A & N). destruct (l_build_ok e n A) as (B & WB & D). intros E.
    destruct (wfl_copy_std PS (Some (l_build (e, n))) _ _ _ W ltac:(intros src S0; assert (src = l_build (e, n)) by congruence; subst src; exact WB) E) as (C & W' & D').
    cbn [option_map] in C. rewrite B in C. split; [exact C|]. split; [exact W'|]. intros R k. rewrite (D' R k), D, B, <- N.
    destruct e as [[[nm a] b] rows]. destruct A as (_ & _ & A). pose proof (build_props (nm, a, b, rows)) as (_ & _ & Q). rewrite Q, last_added_row.
    pose proof (rows_same rows (snd n) k A) as Z0. destruct (row_for k rows), (find _ (rev (snd n))); cbn [option_map]; try reflexivity.
    + destruct Z0 as (_ & Z0). specialize (Z0 eq_refl). discriminate.
    + destruct Z0 as (Z0 & _). specialize (Z0 eq_refl). discriminate.
  - destruct F as (-> & ->). cbn [l_copy_std option_map copy_std rev find]. intros [= <- <-]. split; [reflexivity|]. split; [exact W|]. reflexivity.
Qed.
Lemma l_db_ok a code : set_code 0 a = (code, true) -> l_get_object a = option_map l_build (full_of (group_of code) (class_of code)).
Proof. intros H. unfold l_get_object. change CODE_UNKNOWN with 0. rewrite H. cbn [negb]. rewrite group_code_of, class_code_of. apply l_lookup. Qed.
Lemma wfl_update (PS : PySet) x x' r : wfl x -> l_update_maps x = (x', r) -> update_property_maps (lo_obj x) = (lo_obj x', r) /\ wfl x' /\ forall k, desc x' k = desc x k.
Proof.
  intros W. unfold l_update_maps. destruct (update_property_maps (lo_obj x)) as [o q] eqn:E. intros [= <- <-]. apply vc_update in E. destruct (wfl_values o x W E) as (W' & D). split; [reflexivity|]. split; [exact W'|exact D].
Qed.
(** set_code of a standard object. *)
Lemma wfl_set_code (PS : PySet) a x x' r : wfl x -> l_standard_set_code a x = (x', r) ->
  standard_set_code a (lo_obj x) = (lo_obj x', r) /\ wfl x' /\ (forall b, r = Ok b -> forall k, desc x' k = said_next (desc x) (OCode a) k).
Proof.
  intros W. unfold l_standard_set_code, standard_set_code. cbn [said_next]. destruct (set_code (o_code (lo_obj x)) a) as [c ok] eqn:S0.
  set (y := with_obj _ x). assert (Wy : wfl y) by exact W. destruct ok; cbn [negb].
  2:{ assert (N : forall code, set_code 0 a <> (code, true)) by (intros code H; apply (set_code_indep _ (o_code (lo_obj x))) in H; congruence).
      intros [= <- <-]. split; [reflexivity|]. split; [exact Wy|]. intros b _ k. destruct (set_code 0 a) as [code []]; [|reflexivity]. destruct (N code eq_refl). }
  apply (set_code_indep _ 0) in S0. rewrite S0. rewrite (l_db_ok (PInt SUPER_CODE) SUPER_CODE eq_refl), (l_db_ok a c S0), (db_get_int SUPER_CODE), (db_get_ok a c S0).
  change (group_of SUPER_CODE) with 0. change (class_of SUPER_CODE) with 0.
  destruct (l_copy_std (option_map l_build (full_of 0 0)) y) as [x1 [[]|e1]] eqn:E1; destruct (copy_class PS 0 0 y x1 _ Wy E1) as (C1 & W1 & D1); cbn [lo_obj y with_obj] in C1; rewrite C1; cbn [obind].
  2:{ intros [= <- <-]. split; [reflexivity|]. split; [exact W1|]. discriminate. }
  destruct (l_copy_std (option_map l_build (full_of (group_of c) (class_of c))) x1) as [x2 [[]|e2]] eqn:E2; destruct (copy_class PS _ _ x1 x2 _ W1 E2) as (C2 & W2 & D2); rewrite C2; cbn [obind].
  2:{ intros [= <- <-]. split; [reflexivity|]. split; [exact W2|]. discriminate. }
  intros E3. destruct (wfl_update PS _ _ _ W2 E3) as (C3 & W3 & D3). split; [exact C3|]. split; [exact W3|]. intros b _ k.
  rewrite D3, (D2 eq_refl), (D1 eq_refl), described_class. destruct (class_desc _ _ k); [reflexivity|]. destruct (class_desc 0 0 k); reflexivity.
Qed.
Lemma says_ext x k d d' : d = d' -> says x k d -> says x k d'.
Proof. intros ->. exact (fun H => H). Qed.
Lemma build_name e : o_name (build_object e) = fst (fst (fst e)).
Proof.
  destruct e as [[[n g] c] rows]. unfold build_object. assert (H : forall o, o_name (fold_left (fun o r => fst (add_property_base (Some (row_property r)) o)) rows o) = o_name o).
  { induction rows as [|r rows IH]; intros o; [reflexivity|]. cbn [fold_left]. rewrite IH. reflexivity. }
  rewrite H. reflexivity.
Qed.
Lemma copy_name (PS : PySet) e o o' r : copy_std (option_map build_object e) o = (o', r) -> o_name o' = match e with Some e => fst (fst (fst e)) | None => o_name o end.
Proof.
  destruct e as [e|]; cbn [option_map copy_std]; [|intros [= <- _]; reflexivity]. unfold set_object_properties. destruct (add_all _ _) as [o1 r1] eqn:A. apply add_all_frame in A as (_ & A & _).
  cbn [o_name set_o_name] in A. rewrite build_name in A. destruct r1; cbn [obind]; intros [= <- _]; exact A.
Qed.
Lemma update_name (PS : PySet) o o' r : update_property_maps o = (o', r) -> o_name o' = o_name o.
Proof. intros E. apply vc_update in E. apply E. Qed.
Lemma super_entry : exists rows, std_entry_of 0 0 = Some ("Super class"%string, 0, 0, rows).
Proof. eexists. vm_compute. reflexivity. Qed.
Lemma blank_wfl o : o_props o = [] -> wfl (mklobj o []).
Proof. intros E. unfold wfl. cbn [lo_obj lo_lab]. rewrite E. split; [constructor|]. split; [discriminate|reflexivity]. Qed.
Lemma l_new_ok (PS : PySet) a code : set_code 0 a = (code, true) -> exists x, l_new_standard a = (x, Ok tt) /\ new_standard a = (lo_obj x, Ok tt) /\ wfl x /\
  o_name (lo_obj x) = class_name (group_of code) (class_of code) /\ forall k, desc x k = described (group_of code) (class_of code) k.
Proof.
  intros H. destruct (new_standard_ok a code H) as (o1 & E & _). revert E. unfold new_standard, l_new_standard. set (o0 := mkobj CODE_UNKNOWN "" [] HSuper 0 [] CStandard).
  destruct (l_standard_set_code a (mklobj o0 [])) as [x r] eqn:L. destruct (wfl_set_code PS a _ x r (blank_wfl o0 eq_refl) L) as (S0 & W & D). cbn [lo_obj] in S0. rewrite S0.
  destruct r as [b|e]; cbn [obind]; [|discriminate]. intros E. exists x. split; [reflexivity|]. split; [reflexivity|]. split; [exact W|]. split.
  - revert S0. unfold standard_set_code. rewrite (set_code_indep _ (o_code o0) _ _ H). cbn [negb]. rewrite (db_get_int SUPER_CODE), (db_get_ok a code H).
    destruct (copy_std _ (set_o_code code o0)) as [y1 r1] eqn:C1. destruct r1; cbn [obind]; [|discriminate]. apply copy_name in C1.
    destruct (copy_std _ y1) as [y2 r2] eqn:C2. destruct r2; cbn [obind]; [|discriminate]. apply copy_name in C2. intros U. apply update_name in U. rewrite U, C2. unfold class_name.
    change (group_of SUPER_CODE) with 0 in C1. change (class_of SUPER_CODE) with 0 in C1. destruct super_entry as (rows & SE). rewrite SE in C1. rewrite C1. destruct (std_entry_of _ _) as [[[[n g] c] rs]|]; reflexivity.
  - intros k. rewrite (D b eq_refl k). cbn [said_next]. rewrite H. destruct (described _ _ k); reflexivity.
Qed.
Lemma L_C118_standard : forall (PS : PySet) a code, set_code 0 a = (code, true) ->
  exists x, l_new_standard a = (x, Ok tt) /\ new_standard a = (lo_obj x, Ok tt) /\ o_name (lo_obj x) = class_name (group_of code) (class_of code) /\
  forall k, says x k (described (group_of code) (class_of code) k).
Proof.
  intros PS a code H. destruct (l_new_ok PS a code H) as (x & L & N & W & M & D). exists x. split; [exact L|]. split; [exact N|]. split; [exact M|].
  intros k. rewrite <- D. apply desc_says, W.
Qed.
(** Each property of a standard object is described, and nothing else is. *)
Lemma described_rows code k : described (group_of code) (class_of code) k = None <-> row_for k (object_rows (group_of code) (class_of code)) = None.
Proof.
  assert (A : forall g c, map fst (std_rows g c) = map fst (name_rows g c)).
  { intros g c. pose proof (full_is g c) as F. destruct (full_of g c) as [[[[[n a] b] rows] nm]|].
    - destruct F as (S0 & (_ & _ & M) & <-). unfold std_rows. rewrite S0. exact M.
    - destruct F as (S0 & ->). unfold std_rows. rewrite S0. reflexivity. }
  rewrite (rows_same _ (name_rows 0 0 ++ name_rows (group_of code) (class_of code)) k); [|unfold object_rows; rewrite !map_app; f_equal; apply A].
  unfold described. destruct (find _ _); cbn; split; congruence.
Qed.
Lemma L_C118_each : forall (PS : PySet) a code o k, set_code 0 a = (code, true) -> new_standard a = (o, Ok tt) ->
  (get_property k o <> None <-> described (group_of code) (class_of code) k <> None).
Proof.
  intros PS a code o k H N. destruct (L_C56_standard_properties PS a code H) as (o' & E & _ & _ & G). assert (o' = o) by congruence. subst o'. specialize (G k).
  pose proof (described_rows code k) as R. destruct (row_for k _) as [r|].
  - destruct G as (p & G & _). rewrite G. split; [|discriminate]. intros _ D. apply R in D. discriminate.
  - rewrite G. split; [intros X; destruct (X eq_refl)|]. intros X. destruct X. apply R. reflexivity.
Qed.
(** No name of the tables is empty. *)
Lemma names_filled : forallb (fun e : name_entry => forallb (fun r : name_row => negb (String.eqb (fst (fst (snd r))) "")) (snd e)) (scsl_names ++ mra_names) = true.
Proof. vm_compute. reflexivity. Qed.
Lemma name_rows_in g c r : In r (name_rows g c) -> exists e, In e (scsl_names ++ mra_names) /\ In r (snd e).
Proof.
  unfold name_rows. destruct (find _ _) as [e|] eqn:F; [|intros []]. intros I. exists e. split; [|exact I]. apply find_some in F as (F & _). apply in_rev, F.
Qed.
Lemma L_C118_filled : forall g c k n t z, described g c k = Some (n, t, z) -> n <> ""%string.
Proof.
  intros g c k n t z. unfold described. destruct (find _ _) as [r|] eqn:F; [|discriminate]. cbn [option_map]. intros [= E]. apply find_some in F as (I & _). apply in_rev in I.
  assert (X : exists e, In e (scsl_names ++ mra_names) /\ In r (snd e)) by (apply in_app_iff in I as [I|I]; exact (name_rows_in _ _ _ I)). destruct X as (e & Ie & Ir).
  pose proof names_filled as A. rewrite forallb_forall in A. specialize (A e Ie). rewrite forallb_forall in A. specialize (A r Ir). rewrite E in A. cbn [fst] in A. intros ->. discriminate.
Qed.
Lemma new_profile_fine (PS : PySet) a code : set_code 0 a = (code, true) -> exists o, new_profile a = (o, Ok tt).
Proof.
  intros H. unfold new_profile. set (o0 := mkobj CODE_UNKNOWN "" [] HSuper 0 [] CProfile).
  assert (T0 : tracks (o_props o0) []) by (split; [constructor|intros x; reflexivity]).
  assert (R0 : code_range o0) by (intros x Hx; discriminate).
  rewrite (db_get_int SUPER_CODE). change (group_of SUPER_CODE) with 0. change (class_of SUPER_CODE) with 0.
  destruct (copy_std_ok 0 0 o0 [] T0 R0) as (o1 & E1 & T1 & R1 & C1 & _). rewrite E1. cbn [obind app] in *. unfold profile_set_code.
  rewrite (set_code_indep _ (o_code o1) _ _ H). cbn [negb]. rewrite (db_get_ok a code H).
  destruct (copy_std_ok (group_of code) (class_of code) (set_o_code code o1) _ T1 R1) as (o2 & E2 & T2 & R2 & _). rewrite E2. cbn [obind].
  assert (M : has_maps o2).
  { apply (has_maps_of o2 _ T2). intros c Hc. destruct (super_has_maps c Hc) as (p & Hp & Ep). exists p. split; [apply in_app_iff; now left|assumption]. }
  rewrite (update_maps_ok o2 _ T2 R2 M). cbn [obind]. eauto.
Qed.
Lemma L_C118_profile : forall (PS : PySet) a code, set_code 0 a = (code, true) ->
  exists x, l_new_profile a = (x, Ok tt) /\ new_profile a = (lo_obj x, Ok tt) /\ o_name (lo_obj x) = class_name (group_of code) (class_of code) /\
  forall k, says x k (described (group_of code) (class_of code) k).
Proof.
  intros PS a code H. destruct (new_profile_fine PS a code H) as (o & E). revert E. unfold new_profile, l_new_profile, profile_set_code, l_profile_set_code.
  set (o0 := mkobj CODE_UNKNOWN "" [] HSuper 0 [] CProfile). rewrite (db_get_int SUPER_CODE), (db_get_ok a code H), (l_db_ok (PInt SUPER_CODE) SUPER_CODE eq_refl), (l_db_ok a code H).
  change (group_of SUPER_CODE) with 0. change (class_of SUPER_CODE) with 0.
  destruct (l_copy_std (option_map l_build (full_of 0 0)) (mklobj o0 [])) as [x1 [[]|e1]] eqn:E1; destruct (copy_class PS 0 0 _ x1 _ (blank_wfl o0 eq_refl) E1) as (C1 & W1 & D1); cbn [lo_obj] in C1; rewrite C1; cbn [obind]; [|discriminate].
  rewrite (set_code_indep _ (o_code (lo_obj x1)) _ _ H). cbn [negb]. set (y := with_obj _ x1). assert (Wy : wfl y) by exact W1. change (set_o_code code (lo_obj x1)) with (lo_obj y).
  destruct (l_copy_std (option_map l_build (full_of (group_of code) (class_of code))) y) as [x2 [[]|e2]] eqn:E2; destruct (copy_class PS _ _ y x2 _ Wy E2) as (C2 & W2 & D2); rewrite C2; cbn [obind]; [|discriminate].
  destruct (l_update_maps x2) as [x3 r3] eqn:E3. destruct (wfl_update PS _ _ _ W2 E3) as (C3 & W3 & D3). rewrite C3. destruct r3 as [b|e3]; cbn [obind]; [|discriminate].
  intros E. exists x3. split; [reflexivity|]. split; [reflexivity|]. split.
  - apply copy_name in C1, C2. apply update_name in C3. rewrite C3, C2. unfold class_name. destruct super_entry as (rows & SE). rewrite SE in C1. cbn [lo_obj y with_obj o_name set_o_code]. rewrite C1.
    destruct (std_entry_of _ _) as [[[[n g] c] rs]|]; reflexivity.
  - intros k. eapply says_ext; [|apply desc_says, W3]. rewrite D3, (D2 eq_refl). change (desc y k) with (desc x1 k). rewrite (D1 eq_refl), described_class. destruct (class_desc _ _ k); [reflexivity|]. destruct (class_desc 0 0 k); reflexivity.
Qed.

(** ** What happens to an object later *)
Lemma std_class_set (PS : PySet) a o o' r : standard_set_code a o = (o', r) -> o_handler o' = o_handler o /\ o_cls o' = o_cls o.
Proof.
  unfold standard_set_code. destruct (set_code (o_code o) a) as [c ok]. destruct ok; cbn [negb]; [|intros [= <- _]; split; reflexivity].
  assert (F : forall s y y' q, copy_std s y = (y', q) -> o_handler y' = o_handler y /\ o_cls y' = o_cls y).
  { intros [src|] y y' q; cbn [copy_std]; [|intros [= <- _]; split; reflexivity]. unfold set_object_properties. destruct (add_all _ _) as [y1 q1] eqn:A. apply add_all_frame in A as (_ & _ & A1 & A2 & _). destruct q1; cbn [obind]; intros [= <- _]; split; assumption. }
  destruct (copy_std _ (set_o_code c o)) as [o1 r1] eqn:C1. apply F in C1 as (H1 & K1). cbn in H1, K1. destruct r1; cbn [obind]; [|intros [= <- _]; split; assumption].
  destruct (copy_std _ o1) as [o2 r2] eqn:C2. apply F in C2 as (H2 & K2). destruct r2; cbn [obind]; [|intros [= <- _]; split; congruence].
  intros U. apply vc_update in U as (_ & _ & _ & _ & H3 & K3). split; congruence.
Qed.
Definition std_like (x : lobj) : Prop := wfl x /\ o_handler (lo_obj x) = HSuper /\ o_cls (lo_obj x) = CStandard.
Lemma step_ok (PS : PySet) op x x' b : std_like x -> l_step op x = (x', b) -> std_like x' /\ (match op with OCode _ => b = true | _ => True end -> forall k, desc x' k = said_next (desc x) op k).
Proof.
  intros (W & Hh & Hc) E. destruct op as [c d|p l|a|m]; cbn [l_step] in E.
  - assert (x' = with_obj (fst (set_property_data c d (lo_obj x))) x) by congruence. subst x'. pose proof (vc_data c d (lo_obj x)) as V. destruct (wfl_values _ x W V) as (W' & D).
    destruct V as (_ & _ & _ & _ & V3 & V4). split; [|intros _; exact D]. split; [exact W'|]. cbn [lo_obj with_obj]. split; congruence.
  - unfold l_add in E. rewrite Hc in E. destruct (l_add_super p l x) as [y r] eqn:A. assert (y = x') by congruence. subst y. destruct (wfl_add_super PS _ _ _ _ _ W A) as (S0 & W' & D).
    apply super_add_frame in S0 as (_ & _ & S1 & S2 & _). split; [|intros _; exact D]. split; [exact W'|]. split; congruence.
  - unfold l_set_code in E. rewrite Hc in E. destruct (l_standard_set_code a x) as [y r] eqn:A. assert (y = x') by congruence. subst y. destruct (wfl_set_code PS _ _ _ _ W A) as (S0 & W' & D).
    apply std_class_set in S0 as (S1 & S2). split; [split; [exact W'|]; split; congruence|]. intros Hb. destruct r as [b0|e]; [exact (D b0 eq_refl)|]. congruence.
  - destruct (obj_message_received (lo_obj x) m) as [[o t] r] eqn:A. assert (x' = with_obj o x) by congruence. subst x'. apply (vc_msg _ _ _ _ _ Hh) in A. destruct (wfl_values _ x W A) as (W' & D).
    destruct A as (_ & _ & _ & _ & V3 & V4). split; [|intros _; exact D]. split; [exact W'|]. cbn [lo_obj with_obj]. split; congruence.
Qed.
Lemma said_ext ops : forall d d', (forall k, d k = d' k) -> forall k, said d ops k = said d' ops k.
Proof.
  induction ops as [|op ops IH]; intros d d' H k; [apply H|]. unfold said. cbn [fold_left]. apply (IH (said_next d op) (said_next d' op)). intros j. unfold said_next.
  destruct op as [c z|p l|a|m]; rewrite ?H; reflexivity.
Qed.
Lemma run_ok (PS : PySet) ops : forall x x' bs, std_like x -> l_run ops x = (x', bs) -> std_like x' /\ (codes_set ops bs -> forall k, desc x' k = said (desc x) ops k).
Proof.
  induction ops as [|op ops IH]; intros x x' bs H E; cbn [l_run] in E.
  - assert (x' = x) by congruence. subst x'. split; [exact H|]. reflexivity.
  - destruct (l_step op x) as [x1 b] eqn:E1. destruct (l_run ops x1) as [x2 bs2] eqn:E2. assert (x2 = x' /\ bs = b :: bs2) as (-> & ->) by (split; congruence).
    destruct (step_ok PS op x x1 b H E1) as (H1 & D1). destruct (IH x1 x' bs2 H1 E2) as (H2 & D2). split; [exact H2|]. intros C k. unfold codes_set in C. inversion C as [|? ? ? ? C1 C2]; subst.
    rewrite (D2 C2 k). unfold said. cbn [fold_left]. apply said_ext. intros j. apply (D1 C1).
Qed.
Lemma new_std_like (PS : PySet) a code x : set_code 0 a = (code, true) -> l_new_standard a = (x, Ok tt) -> std_like x /\ forall k, desc x k = described (group_of code) (class_of code) k.
Proof.
  intros H L. destruct (l_new_ok PS a code H) as (y & L' & N & W & _ & D). assert (y = x) by congruence. subst y. split; [|exact D]. split; [exact W|].
  destruct (new_standard_ok a code H) as (o1 & E & _ & _ & _ & _ & Hh & Hc). rewrite N in E. assert (X : lo_obj x = with_maps o1) by congruence. rewrite X.
  unfold with_maps. pose proof (vc_refl o1) as V.
  assert (K : forall c d o, o_handler (fst (set_property_data c d o)) = o_handler o /\ o_cls (fst (set_property_data c d o)) = o_cls o) by (intros c d o; destruct (vc_data c d o) as (_ & _ & _ & _ & A & B); auto).
  split; [rewrite !(proj1 (K _ _ _)); exact Hh|rewrite !(proj2 (K _ _ _)); exact Hc].
Qed.
Lemma L_C118_history : forall (PS : PySet) a code x0 ops x bs, set_code 0 a = (code, true) -> l_new_standard a = (x0, Ok tt) ->
  l_run ops x0 = (x, bs) -> codes_set ops bs -> forall k, says x k (said (described (group_of code) (class_of code)) ops k).
Proof.
  intros PS a code x0 ops x bs H L R C k. destruct (new_std_like PS a code x0 H L) as (S0 & D). destruct (run_ok PS ops x0 x bs S0 R) as ((W & _) & D').
  eapply says_ext; [|apply desc_says, W]. rewrite (D' C). apply said_ext, D.
Qed.
(** Without the fields it is the model of the other files. *)
Lemma L_C118_same : forall (PS : PySet) a code x0 ops x bs, set_code 0 a = (code, true) -> l_new_standard a = (x0, Ok tt) -> l_run ops x0 = (x, bs) ->
  lo_obj x = fold_left plain_step ops (lo_obj x0).
Proof.
  intros PS a code x0 ops x bs H L. destruct (new_std_like PS a code x0 H L) as (S0 & _). clear H L a code. revert x0 x bs S0. induction ops as [|op ops IH]; intros x0 x bs S0 E; cbn [l_run fold_left] in *; [congruence|].
  destruct (l_step op x0) as [x1 b] eqn:E1. destruct (l_run ops x1) as [x2 bs2] eqn:E2. assert (x2 = x) by congruence. subst x2. rewrite (IH _ _ _ (proj1 (step_ok PS _ _ _ _ S0 E1)) E2). f_equal.
  destruct S0 as (W & _ & Hc). destruct op as [c d|p l|a|m]; cbn [l_step plain_step] in *.
  - assert (x1 = with_obj (fst (set_property_data c d (lo_obj x0))) x0) by congruence. subst x1. reflexivity.
  - unfold l_add in E1. unfold obj_add_property. rewrite Hc in *. destruct (l_add_super p l x0) as [y r] eqn:A. assert (y = x1) by congruence. subst y. destruct (wfl_add_super PS _ _ _ _ _ W A) as (-> & _). reflexivity.
  - unfold l_set_code in E1. unfold obj_set_code. rewrite Hc in *. destruct (l_standard_set_code a x0) as [y r] eqn:A. assert (y = x1) by congruence. subst y. destruct (wfl_set_code PS _ _ _ _ W A) as (-> & _). reflexivity.
  - destruct (obj_message_received (lo_obj x0) m) as [[o t] r]. assert (x1 = with_obj o x0) by congruence. subst x1. reflexivity.
Qed.

(** ** Copies *)
Lemma copy_fold_l ps : forall y, wfl y -> let z := fold_left (fun acc e => l_add_base (fst e) (snd e) acc) ps y in
  lo_obj z = fold_left (fun acc p => fst (add_property_base (Some p) acc)) (map fst ps) (lo_obj y) /\ wfl z /\ forall k, desc z k = over (lastl k ps) (desc y k).
Proof.
  induction ps as [|[p l] ps IH]; intros y W; cbv zeta; [split; [reflexivity|]; split; [exact W|reflexivity]|]. cbn [fold_left map fst snd].
  destruct (wfl_add_base p l y W) as (W1 & D1). destruct (IH _ W1) as (A & W2 & D2). split; [exact A|]. split; [exact W2|]. intros k. rewrite D2, lastl_cons, D1.
  destruct (lastl k ps) as [q|]; cbn [over]; [reflexivity|]. rewrite (Z.eqb_sym k). destruct (op_code p =? k); reflexivity.
Qed.
Lemma copy_desc x : wfl x -> lo_obj (l_copy x) = copy_object (lo_obj x) /\ wfl (l_copy x) /\ forall k, desc (l_copy x) k = desc x k.
Proof.
  intros W. unfold l_copy, copy_object. set (o0 := set_o_name _ _). destruct (copy_fold_l (l_props x) (mklobj o0 []) (blank_wfl o0 eq_refl)) as (A & W' & D).
  rewrite l_props_fst in A. split; [exact A|]. split; [exact W'|]. intros k. rewrite D, (lastl_props x k W). pose proof W as (_ & _ & K). pose proof (keys_get k _ _ K) as G.
  destruct (zget k (o_props (lo_obj x))); [reflexivity|]. cbn [over]. unfold desc. rewrite (proj2 G eq_refl). reflexivity.
Qed.
Lemma L_C118_copy : forall (PS : PySet) a code x0 ops x bs, set_code 0 a = (code, true) -> l_new_standard a = (x0, Ok tt) ->
  l_run ops x0 = (x, bs) -> codes_set ops bs -> lo_obj (l_copy x) = copy_object (lo_obj x) /\ o_name (lo_obj (l_copy x)) = o_name (lo_obj x) /\
  forall k, says (l_copy x) k (said (described (group_of code) (class_of code)) ops k).
Proof.
  intros PS a code x0 ops x bs H L R C. destruct (new_std_like PS a code x0 H L) as (S0 & D). destruct (run_ok PS ops x0 x bs S0 R) as ((W & _) & D'). destruct (copy_desc x W) as (E & W' & D2).
  split; [exact E|]. split.
  - rewrite E. unfold copy_object. assert (N : forall l o, o_name (fold_left (fun acc p => fst (add_property_base (Some p) acc)) l o) = o_name o) by (induction l as [|p l IH]; intros o; [reflexivity|]; cbn [fold_left]; rewrite IH; reflexivity).
    rewrite N. reflexivity.
  - intros k. eapply says_ext; [|apply desc_says, W']. rewrite D2, (D' C). apply said_ext, D.
Qed.

(** ** The tools *)
Lemma values_run (PS : PySet) ops : forall x x' bs, std_like x -> Forall values_only ops -> l_run ops x = (x', bs) ->
  std_like x' /\ values_changed (lo_obj x) (lo_obj x') /\ forall k, desc x' k = desc x k.
Proof.
  induction ops as [|op ops IH]; intros x x' bs H F E; cbn [l_run] in E.
  - assert (x' = x) by congruence. subst x'. split; [exact H|]. split; [apply vc_refl|reflexivity].
  - destruct (l_step op x) as [x1 b] eqn:E1. destruct (l_run ops x1) as [x2 bs2] eqn:E2. assert (x2 = x') by congruence. subst x2. apply Forall_cons_iff in F as (F1 & F2).
    destruct (step_ok PS op x x1 b H E1) as (H1 & D1). destruct (IH x1 x' bs2 H1 F2 E2) as (H2 & V2 & D2). split; [exact H2|].
    assert (V1 : values_changed (lo_obj x) (lo_obj x1)).
    { destruct H as (_ & Hh & _). destruct op as [c d|p l|a|m]; try (destruct F1); cbn [l_step] in E1.
      - assert (x1 = with_obj (fst (set_property_data c d (lo_obj x))) x) by congruence. subst x1. apply vc_data.
      - destruct (obj_message_received (lo_obj x) m) as [[o t] r] eqn:A. assert (x1 = with_obj o x) by congruence. subst x1. exact (vc_msg _ _ _ _ _ Hh A). }
    split; [exact (vc_trans _ _ _ V1 V2)|]. intros k. rewrite D2. destruct op as [c d|p l|a|m]; try (destruct F1); apply D1; constructor.
Qed.
Lemma made_is (PS : PySet) x : standard_made x -> wfl x /\ forall p, In p (dvals (o_props (lo_obj x))) ->
  exists n t z, described (group_of (o_code (lo_obj x))) (class_of (o_code (lo_obj x))) (op_code p) = Some (n, t, z) /\ prop_name (op_code p) x = Ok n.
Proof.
  intros (c & x0 & ops & bs & L & F & R). destruct (new_std_like PS (PInt c) c x0 eq_refl L) as (S0 & D). destruct (values_run PS ops x0 x bs S0 F R) as ((W & _) & V & D').
  split; [exact W|]. intros p Hp. assert (N : new_standard (PInt c) = (lo_obj x0, Ok tt)) by (destruct (l_new_ok PS (PInt c) c eq_refl) as (y & Y & N & _); assert (y = x0) by congruence; subst y; exact N).
  assert (C0 : o_code (lo_obj x0) = c) by (destruct (L_C56_standard_properties PS (PInt c) c eq_refl) as (o & E & C & _); assert (o = lo_obj x0) by congruence; subst o; exact C).
  destruct V as (K & G & Vc & _). rewrite Vc, C0. unfold dvals in Hp. apply in_map_iff in Hp as ((k & q) & <- & I). cbn [snd]. destruct W as (ND & CK & W3).
  apply (in_dget Z.eqb zeqb_eq) in I; [|exact ND]. pose proof (CK _ _ I) as E. destruct (G k q I) as (q0 & I0 & _). rewrite E.
  assert (X : described (group_of c) (class_of c) k <> None) by (apply (L_C118_each PS (PInt c) c (lo_obj x0) k eq_refl N); unfold get_property; rewrite I0; discriminate).
  destruct (described (group_of c) (class_of c) k) as [[[n t] z]|] eqn:DE; [|destruct (X eq_refl)]. exists n, t, z. split; [reflexivity|].
  assert (SS : says x k (desc x k)) by (apply desc_says; split; [exact ND|]; split; [exact CK|exact W3]). rewrite D', D, DE in SS. apply SS.
Qed.
Lemma made_prop_lines (PS : PySet) x : standard_made x -> forall ps j k ds, incl ps (dvals (o_props (lo_obj x))) ->
  l_prop_lines x j k ps ds = (fst (prop_lines (table_name (lo_obj x)) j k ps ds), Ok (snd (prop_lines (table_name (lo_obj x)) j k ps ds))).
Proof.
  intros M. destruct (made_is PS x M) as (_ & H). induction ps as [|p ps IH]; intros j k ds I; [reflexivity|]. cbn [l_prop_lines prop_lines]. destruct (negb (is_read_required p)); [apply IH; intros q Hq; apply I; now right|].
  destruct (H p (I p (or_introl eq_refl))) as (n & t & z & D & E). rewrite E. destruct ds as [|d ds]; [reflexivity|]. rewrite IH; [|intros q Hq; apply I; now right].
  assert (T : table_name (lo_obj x) p = n) by (unfold table_name; rewrite D; reflexivity). rewrite T. destruct (prop_lines (table_name (lo_obj x)) j (S k) ps ds) as [ls rest]. reflexivity.
Qed.
Lemma made_obj_lines (PS : PySet) xs : Forall standard_made xs -> forall j ds, l_obj_lines j xs ds = (obj_lines table_name j (map lo_obj xs) ds, Ok tt).
Proof.
  induction 1 as [|x xs M F IH]; intros j ds; [reflexivity|]. cbn [l_obj_lines map obj_lines]. rewrite (made_prop_lines PS x M _ _ _ _ (incl_refl _)).
  destruct (prop_lines (table_name (lo_obj x)) j 0 (dvals (o_props (lo_obj x))) ds) as [ls rest]. cbn [fst snd]. rewrite IH. reflexivity.
Qed.
Lemma L_C118_tools : forall (PS : PySet) xs shown i n first, node_objects n = map lo_obj xs -> Forall standard_made xs ->
  Forall (fun o => 0 <= o_code o) (node_objects n) ->
  (forall code k, In (code, k) (mandatory (node_objects n)) -> 0 <= k /\ Forall bytes_ok (shown code k)) ->
  exists ls, l_node_lines i (node_ip n) xs first (map (fun '(code, k) => shown code k) (mandatory (node_objects n))) = (ls, Ok tt) /\ node_block i n first table_name shown ls.
Proof.
  intros PS xs shown i n first E M C B. unfold l_node_lines. rewrite (made_obj_lines PS xs M), <- E. eexists. split; [reflexivity|]. exact (L_C112_block table_name shown i n first C B).
Qed.
(** ** Found nodes *)
Definition all_found (P : obj -> Prop) (c : ctl) : Prop := Forall (fun e => Forall (fun f => P (snd f)) (n_objs (snd e))) (c_found c).
Lemma forall_dset {K V} (eqb : K -> K -> bool) (P : V -> Prop) k v d : P v -> Forall (fun e => P (snd e)) d -> Forall (fun e => P (snd e)) (dset eqb k v d).
Proof. intros Hv. induction 1 as [|[a x] d Hx Hd IH]; cbn; [constructor; [exact Hv|constructor]|]. destruct (eqb k a); constructor; assumption. Qed.
Section Found.
Context {PS : PySet} (P : obj -> Prop) (Pnew : forall c o, new_standard (PInt c) = (o, Ok tt) -> P o) (Pset : forall k d o, P o -> P (fst (set_property_data k d o))).
Notation good n := (Forall (fun f : Z * obj => P (snd f)) (n_objs n)).
Lemma good_add o n : P o -> good n -> good (fst (node_add_object (Some o) n)).
Proof. intros Ho Hn. cbn. apply forall_dset; assumption. Qed.
Lemma good_remote a n r : new_remote a = (n, r) -> good n.
Proof.
  unfold new_remote. assert (G0 : good (new_node a)) by (unfold new_node; destruct a; constructor).
  destruct (new_standard (PInt 0x0EF001)) as [o [[]|e]] eqn:E; intros [= <- _]; [|exact G0]. apply good_add; [exact (Pnew _ _ E)|exact G0].
Qed.
Lemma good_parse_objects data k : forall i n n' r, good n -> parse_objects data k i n = (n', r) -> good n'.
Proof.
  induction k as [|k IH]; intros i n n' r G; cbn [parse_objects]; [intros [= <- _]; exact G|]. destruct (new_standard _) as [o [[]|e]] eqn:E; [|intros [= <- _]; exact G].
  apply IH. apply good_add; [exact (Pnew _ _ E)|exact G].
Qed.
Lemma good_parse m n n' r : good n -> remote_parse m n = (n', r) -> good n'.
Proof.
  intros G. unfold remote_parse. destruct (OPC m <? 1); [intros [= <- _]; exact G|]. destruct (m_props m) as [|p ps]; [intros [= <- _]; exact G|].
  destruct (negb (p_code p =? 0xD5) && negb (p_code p =? 0xD6)); [intros [= <- _]; exact G|]. destruct (py_index (p_data p) 0); [|intros [= <- _]; exact G].
  destruct (_ <? _); [intros [= <- _]; exact G|]. destruct (parse_objects _ _ _ _) as [n1 r1] eqn:E. apply (good_parse_objects _ _ _ _ _ _ G) in E. destruct r1; intros [= <- _]; exact E.
Qed.
Lemma good_loop w c key l : forall tr n o u n' o' tr' r, good n -> P o -> update_loop w tr c key n o l u = (n', o', tr', r) -> good n'.
Proof.
  induction l as [|mp l IH]; intros tr n o u n' o' tr' r G Po; cbn [update_loop]; [intros [= <- _ _ _]; exact G|].
  destruct (get_property (p_code mp) o) as [p|]; [|apply IH; assumption]. destruct (bytes_eqb _ _); [apply IH; assumption|].
  assert (Po' : P (store (p_code mp) (p_data mp) o)) by apply Pset, Po. assert (G' : good (put_node_obj key (store (p_code mp) (p_data mp) o) n)) by (apply forall_dset; assumption).
  destruct (notify_property_updated _ _ _ _ _ _) as [tr1 [u1|e]]; [apply IH; assumption|]. intros [= <- _ _ _]. exact G'.
Qed.
Lemma get_node_in w tr d a n : get_node_loop w tr d a = Ok (Some n) -> exists k, In (k, n) d.
Proof.
  induction d as [|[k n0] d IH]; cbn [get_node_loop]; [discriminate|]. intros H.
  assert (N : get_node_loop w tr d a = Ok (Some n) -> exists k0, In (k0, n) ((k, n0) :: d)) by (intros X; destruct (IH X) as (k0 & I); exists k0; now right).
  destruct a as [s|ip|].
  - destruct (String.eqb s k); [exists k; left; congruence|]. destruct (os_resolve w tr s) as [x|e]; cbn [bindr] in H; [|discriminate]. destruct (String.eqb x k); [exists k; left; congruence|exact (N H)].
  - destruct (String.eqb ip k); [exists k; left; congruence|exact (N H)].
  - exact (N H).
Qed.
Lemma good_update w tr c m c' tr' r : all_found P c -> update_properties w tr c m = (c', tr', r) -> all_found P c'.
Proof.
  intros G. unfold update_properties, get_node. destruct (get_node_loop w tr (c_found c) (from_arg m)) as [[n|]|e] eqn:E; [|intros [= <- _ _]; exact G|intros [= <- _ _]; exact G].
  apply get_node_in in E as (k & I). assert (Gn : good n) by (unfold all_found in G; rewrite Forall_forall in G; exact (G _ I)).
  destruct (get_object (PInt (m_DEOJ m)) n) as [o|] eqn:O; [|intros [= <- _ _]; exact G].
  assert (Po : P o).
  { unfold get_object in O. apply (dget_in Z.eqb zeqb_eq) in O. rewrite Forall_forall in Gn. exact (Gn _ O). }
  cbv zeta. set (key := o_code _). set (ip := match m_from m with Some a => fst a | None => ""%string end).
  destruct (update_loop w tr c key n o (m_props m) false) as [[[n' o'] tr1] [b|e]] eqn:U; apply (good_loop _ _ _ _ _ _ _ _ _ _ _ _ Gn Po) in U;
    assert (G' : all_found P (set_found (sset ip n' (c_found c)) c)) by (apply (forall_dset String.eqb (fun n => good n)); assumption).
  - destruct b; [|intros [= <- _ _]; exact G']. destruct (notify_object_updated _ _ _ _ _) as [tr2 [u2|e2]]; [|intros [= <- _ _]; exact G'].
    destruct (notify_node_updated _ _ _ _) as [tr3 r3]. intros [= <- _ _]. exact G'.
  - intros [= <- _ _]. exact G'.
Qed.
Lemma good_response w tr c m c' tr' r : all_found P c -> ctl_response w tr c m = (c', tr', r) -> all_found P c'.
Proof.
  intros G. unfold ctl_response. destruct (copy_msg m) as [m0|e]; [|intros [= <- _ _]; exact G]. destruct (is_node_profile_message m0) as [np|e]; [|intros [= <- _ _]; exact G]. cbv zeta.
  match goal with |- (match ?f with _ => _ end = _) -> _ => set (found := f) end.
  assert (GF : all_found P (fst (fst found))).
  { subst found. destruct np; [|exact G]. destruct (new_remote (m_from m0)) as [n [[]|e]] eqn:R; [|exact G]. apply good_remote in R. destruct (remote_parse m0 n) as [n' [[]|e]] eqn:Q; [|exact G|exact G].
    apply (good_parse _ _ _ _ R) in Q. unfold add_found_node. cbv zeta.
    destruct (match sget (node_ip n') (c_found c) with None => _ | Some _ => _ end) as [tr1 [u|e]]; [|exact G]. cbn [fst]. apply (forall_dset String.eqb (fun n => good n)); assumption. }
  destruct found as [[c1 tr1] [u|e]]; cbn [fst] in GF; [|intros [= <- _ _]; exact GF].
  match goal with |- (match ?f with _ => _ end = _) -> _ => set (upd := f) end.
  assert (GU : all_found P (fst (fst upd))).
  { subst upd. destruct (_ || _); [|exact GF]. destruct (update_properties w tr1 c1 m0) as [[c2 tr2] r2] eqn:U. exact (good_update _ _ _ _ _ _ _ GF U). }
  destruct upd as [[c2 tr2] [u2|e2]]; cbn [fst] in GU; [|intros [= <- _ _]; exact GU].
  destruct (is_waiting c2); [|intros [= <- _ _]; exact GU]. destruct (c_req c2) as [req|]; [|intros [= <- _ _]; exact GU]. destruct (is_response_message req m0); intros [= <- _ _]; exact GU.
Qed.
Lemma good_history w ms : Forall (fun m => exists a, received_from a m) ms -> forall tr s c s' tr' rs, ln_ctl s = Some c -> all_found P c -> received_all w tr s ms = (s', tr', rs) ->
  exists c', ln_ctl s' = Some c' /\ all_found P c'.
Proof.
  induction ms as [|m ms IH]; intros F tr s c s' tr' rs C G; cbn [received_all].
  - intros [= <- _ _]. exists c. auto.
  - destruct (node_received w tr s m) as [[s1 tr1] r1] eqn:E. destruct (received_all w tr1 s1 ms) as [[s2 tr2] rs2] eqn:R. intros [= <- _ _].
    apply Forall_cons_iff in F as ((a & Hm) & F). pose proof (ctl_node_received PS w tr s c a m s1 tr1 r1 C Hm E) as S0. destruct (is_request (m_ESV m)).
    + exact (IH F _ _ _ _ _ _ S0 G R).
    + destruct S0 as (c1 & E1 & ->). exact (IH F tr1 (set_ln_ctl (Some c1) s) c1 _ _ _ eq_refl (good_response _ _ _ _ _ _ _ G E1) R).
Qed.
End Found.
Lemma made_new (PS : PySet) c o : new_standard (PInt c) = (o, Ok tt) -> exists x, standard_made x /\ lo_obj x = o.
Proof.
  intros N. destruct (l_new_ok PS (PInt c) c eq_refl) as (x & L & N' & _). exists x. split; [|congruence]. exists c, x, [], []. split; [exact L|]. split; [constructor|reflexivity].
Qed.
Lemma run_snoc (PS : PySet) ops op : forall x, fst (l_run (ops ++ [op]) x) = fst (l_step op (fst (l_run ops x))).
Proof.
  induction ops as [|p ops IH]; intros x; cbn [app l_run].
  - cbn [fst]. destruct (l_step op x) as [x1 b]. reflexivity.
  - destruct (l_step p x) as [x1 b]. specialize (IH x1). destruct (l_run (ops ++ [op]) x1) as [x2 bs2]. destruct (l_run ops x1) as [x3 bs3]. exact IH.
Qed.
Lemma made_set (PS : PySet) k d o : (exists x, standard_made x /\ lo_obj x = o) -> exists x, standard_made x /\ lo_obj x = fst (set_property_data k d o).
Proof.
  intros (x & (c & x0 & ops & bs & L & F & R) & <-). exists (with_obj (fst (set_property_data k d (lo_obj x))) x). split; [|reflexivity].
  pose proof (run_snoc PS ops (OSet k d) x0) as S0. rewrite R in S0. cbn [fst l_step] in S0. destruct (l_run (ops ++ [OSet k d]) x0) as [y bs'] eqn:E. cbn [fst] in S0. subst y.
  exists c, x0, (ops ++ [OSet k d]), bs'. split; [exact L|]. split; [|exact E]. apply Forall_app. split; [exact F|]. constructor; [exact I|constructor].
Qed.
Lemma L_C118_found : forall (PS : PySet) w tr s c ms s' tr' rs, ln_ctl s = Some c -> c_found c = [] ->
  Forall (fun m => exists a, received_from a m) ms -> received_all w tr s ms = (s', tr', rs) ->
  exists c', ln_ctl s' = Some c' /\ forall n, In n (ctl_nodes c') -> exists xs, node_objects n = map lo_obj xs /\ Forall standard_made xs.
Proof.
  intros PS w tr s c ms s' tr' rs C E F R. set (P := fun o => exists x, standard_made x /\ lo_obj x = o).
  assert (G0 : all_found P c) by (unfold all_found; rewrite E; constructor).
  destruct (good_history P (made_new PS) (made_set PS) w ms F tr s c s' tr' rs C G0 R) as (c' & C' & G). exists c'. split; [exact C'|].
  intros n I. unfold ctl_nodes, dvals in I. apply in_map_iff in I as ((ip & n0) & <- & I). unfold all_found in G. rewrite Forall_forall in G. specialize (G _ I). cbn [snd] in *.
  unfold node_objects, dvals. induction (n_objs n0) as [|[k o] l IH]; [exists []; split; [reflexivity|constructor]|]. apply Forall_cons_iff in G as ((x & M & X) & G). destruct (IH G) as (xs & Y & FX).
  exists (x :: xs). cbn [map snd] in *. split; [congruence|]. constructor; assumption.
Qed.
Lemma std_name_set (PS : PySet) a o o' b : standard_set_code a o = (o', Ok b) -> o_name o' = name_next (o_name o) (OCode a).
Proof.
  unfold standard_set_code. cbn [name_next]. destruct (set_code (o_code o) a) as [c ok] eqn:S0. destruct ok; cbn [negb].
  2:{ assert (N : forall code, set_code 0 a <> (code, true)) by (intros code H; apply (set_code_indep _ (o_code o)) in H; congruence).
      intros [= <- _]. destruct (set_code 0 a) as [code []]; [|reflexivity]. destruct (N code eq_refl). }
  apply (set_code_indep _ 0) in S0. rewrite S0, (db_get_int SUPER_CODE), (db_get_ok a c S0).
  destruct (copy_std _ (set_o_code c o)) as [y1 r1] eqn:C1. destruct r1; cbn [obind]; [|discriminate]. apply copy_name in C1.
  destruct (copy_std _ y1) as [y2 r2] eqn:C2. destruct r2; cbn [obind]; [|discriminate]. apply copy_name in C2. intros U. apply update_name in U. rewrite U, C2. unfold class_name.
  change (group_of SUPER_CODE) with 0 in C1. change (class_of SUPER_CODE) with 0 in C1. destruct super_entry as (rows & SE). rewrite SE in C1. rewrite C1. destruct (std_entry_of _ _) as [[[[n g] c'] rs]|]; reflexivity.
Qed.
Lemma L_C118_object_name : forall (PS : PySet) a code x0 ops x bs, set_code 0 a = (code, true) -> l_new_standard a = (x0, Ok tt) ->
  l_run ops x0 = (x, bs) -> codes_set ops bs -> o_name (lo_obj x) = fold_left name_next ops (class_name (group_of code) (class_of code)).
Proof.
  intros PS a code x0 ops x bs H L. destruct (new_std_like PS a code x0 H L) as (S0 & _). destruct (l_new_ok PS a code H) as (y & Y & _ & _ & N & _). assert (y = x0) by congruence. subst y. rewrite <- N. clear N Y H L a code.
  revert x0 x bs S0. induction ops as [|op ops IH]; intros x0 x bs S0 E C; cbn [l_run fold_left] in *; [congruence|].
  destruct (l_step op x0) as [x1 b] eqn:E1. destruct (l_run ops x1) as [x2 bs2] eqn:E2. assert (x2 = x /\ bs = b :: bs2) as (-> & ->) by (split; congruence). unfold codes_set in C. inversion C as [|? ? ? ? C1 C2]; subst.
  rewrite (IH _ _ _ (proj1 (step_ok PS _ _ _ _ S0 E1)) E2 C2). f_equal. destruct S0 as (W & Hh & Hc). destruct op as [c d|p l|a|m]; cbn [l_step] in E1.
  - assert (x1 = with_obj (fst (set_property_data c d (lo_obj x0))) x0) by congruence. subst x1. apply vc_data.
  - unfold l_add in E1. rewrite Hc in *. destruct (l_add_super p l x0) as [y r] eqn:A. assert (y = x1) by congruence. subst y. destruct (wfl_add_super PS _ _ _ _ _ W A) as (Q & _). apply super_add_frame in Q. apply Q.
  - unfold l_set_code in E1. rewrite Hc in *. destruct (l_standard_set_code a x0) as [y r] eqn:A. assert (y = x1) by congruence. subst y. destruct (wfl_set_code PS _ _ _ _ W A) as (Q & _). destruct r as [b0|e]; [|congruence]. exact (std_name_set PS _ _ _ _ Q).
  - destruct (obj_message_received (lo_obj x0) m) as [[o t] r] eqn:A. assert (x1 = with_obj o x0) by congruence. subst x1. apply (vc_msg _ _ _ _ _ Hh) in A. apply A.
Qed.
Lemma L_C118_tables : Forall2 same_rows scsl_table scsl_names /\ Forall2 same_rows mra_table mra_names.
Proof. destruct tables_aligned as (_ & A & B). split; assumption. Qed.
