(** Lemmas about the standard database and standard objects (C56-C58). *)
From Verif Require Import PyBase BytesM MsgM PropM ObjM DbData DbM SpecWire SpecObj SpecMap SpecReq SpecDb
  DictP BytesP ObjP MapP ReqP.
Require Import ZifyBool.

Lemma key_eqb_eq a b : key_eqb a b = true <-> a = b.
Proof.
  destruct a as [a1 a2], b as [b1 b2]. unfold key_eqb. cbn [fst snd]. rewrite andb_true_iff, !Z.eqb_eq.
  split; [intros (-> & ->); reflexivity|intros [= -> ->]; auto].
Qed.
Definition kget_kset {V} := @dget_dset (Z * Z) V key_eqb key_eqb_eq.

Lemma find_app {A} (f : A -> bool) l1 l2 : find f (l1 ++ l2) = match find f l1 with Some x => Some x | None => find f l2 end.
Proof. induction l1 as [|x l1 IH]; [reflexivity|]. cbn [app find]. destruct (f x); auto. Qed.

(** ** The table of standard objects *)
Lemma build_table_get g c t : forall d,
  kget (g, c) (fold_left (fun d e => kset (entry_key e) (build_object e) d) t d)
  = match find (entry_is g c) (rev t) with Some e => Some (build_object e) | None => kget (g, c) d end.
Proof.
  induction t as [|e t IH]; intros d; [reflexivity|]. cbn [fold_left rev]. rewrite IH, find_app.
  destruct (find (entry_is g c) (rev t)); [reflexivity|]. rewrite kget_kset. cbn [find].
  destruct e as [[[n grp] cls] rows]. cbn [entry_key entry_is]. unfold key_eqb. cbn [fst snd].
  destruct ((g =? grp) && (c =? cls)); reflexivity.
Qed.

Lemma kget_rev_nodup {V} k (d : list ((Z * Z) * V)) : NoDup (dkeys d) -> kget k (rev d) = kget k d.
Proof.
  intros N. assert (N' : NoDup (dkeys (rev d))) by (unfold dkeys; rewrite map_rev; now apply NoDup_rev).
  destruct (kget k d) as [v|] eqn:E.
  - apply (dget_in key_eqb key_eqb_eq) in E. apply (in_dget key_eqb key_eqb_eq); [assumption|]. now rewrite <- in_rev.
  - destruct (kget k (rev d)) as [v|] eqn:E'; [|reflexivity].
    apply (dget_in key_eqb key_eqb_eq) in E'. rewrite <- in_rev in E'. apply (in_dget key_eqb key_eqb_eq _ _ _ N) in E'. congruence.
Qed.

Lemma build_table_nodup t : NoDup (dkeys (build_table t)).
Proof.
  unfold build_table. assert (G : forall d, NoDup (dkeys d) -> NoDup (dkeys (fold_left (fun d e => kset (entry_key e) (build_object e) d) t d))).
  { induction t as [|e t IH]; intros d N; [assumption|]. cbn [fold_left]. apply IH. now apply (nodup_dset key_eqb key_eqb_eq). }
  apply G. constructor.
Qed.

Lemma std_lookup g c : kget (g, c) all_std_objects = option_map build_object (std_entry_of g c).
Proof.
  unfold all_std_objects, std_entry_of. rewrite !(dget_dupdate key_eqb key_eqb_eq).
  rewrite !kget_rev_nodup by apply build_table_nodup. unfold build_table. rewrite !build_table_get.
  rewrite rev_app_distr, find_app. 
  destruct (find (entry_is g c) (rev mra_table)); [reflexivity|].
  destruct (find (entry_is g c) (rev scsl_table)); reflexivity.
Qed.

(** ** Objects built from rows *)
Lemma build_props e : let '(name, grp, cls, rows) := e in
  tracks (o_props (build_object e)) (map row_property rows) /\
  (forall p, In p (dvals (o_props (build_object e))) -> In p (map row_property rows)) /\
  (forall x, zget x (o_props (build_object e)) = last_added x (map row_property rows)).
Proof.
  destruct e as [[[name grp] cls] rows]. unfold build_object.
  induction rows as [|r rows IH] using rev_ind.
  - split; [split; [constructor|intros x; reflexivity]|]. split; [intros p []|reflexivity].
  - rewrite fold_left_app, map_app. cbn [fold_left map add_property_base fst]. 
    set (o := fold_left (fun o r => fst (add_property_base (Some (row_property r)) o)) rows (std_object name grp cls)) in *.
    destruct IH as (T & I & G). cbn [o_props set_o_props].
    split; [now apply tracks_add|]. split.
    + intros p Hp. unfold dvals in Hp. apply in_map_iff in Hp. destruct Hp as ([k q] & E & Hin). cbn [snd] in E. subst q.
      apply in_app_iff. apply (in_dset Z.eqb) in Hin.
      destruct Hin as [E|[Hin|(a & _ & E)]].
      * injection E as _ ->. right. now left.
      * left. apply I. unfold dvals. apply in_map_iff. exists (k, p). auto.
      * injection E as _ ->. right. now left.
    + intros x. rewrite zget_zset, last_added_snoc, G, (Z.eqb_sym x). reflexivity.
Qed.

Lemma last_added_app x l1 l2 : last_added x (l1 ++ l2) =
  match last_added x l2 with Some q => Some q | None => last_added x l1 end.
Proof.
  induction l1 as [|p l1 IH]; cbn [app last_added]; [destruct (last_added x l2); reflexivity|].
  rewrite IH. destruct (last_added x l2); reflexivity.
Qed.

Lemma last_added_dvals (t : props) x : NoDup (dkeys t) -> (forall k p, zget k t = Some p -> op_code p = k) ->
  last_added x (dvals t) = zget x t.
Proof.
  induction t as [|[k p] t IH]; intros N H; [reflexivity|].
  cbn [dkeys map fst] in N. inversion N as [|? ? Hk N']; subst. fold (dkeys t) in Hk.
  cbn [dvals map snd last_added dget]. fold (dvals t).
  assert (Hp : op_code p = k). { apply H. cbn [dget]. now rewrite Z.eqb_refl. }
  rewrite IH; [|assumption|].
  - rewrite Hp, (Z.eqb_sym k). destruct (Z.eqb_spec x k) as [Ex|]; [|destruct (zget x t); reflexivity].
    subst x. apply zget_none in Hk. rewrite Hk. reflexivity.
  - intros k' p' G. apply H. cbn [dget]. destruct (Z.eqb_spec k' k) as [Ek|]; [|assumption].
    subst k'. apply zget_none in Hk. congruence.
Qed.

Lemma tracks_wf t ps : tracks t ps -> forall k p, zget k t = Some p -> op_code p = k.
Proof. intros (_ & T) k p G. specialize (T k). rewrite G in T. destruct (last_added k ps); tauto. Qed.

Lemma last_added_row x rows : last_added x (map row_property rows)
  = option_map row_property (row_for x rows).
Proof.
  unfold row_for. induction rows as [|r rows IH] using rev_ind; [reflexivity|].
  rewrite map_app. cbn [map]. rewrite last_added_snoc, rev_app_distr. cbn [rev app find].
  replace (op_code (row_property r)) with (fst r) by (destruct r as [c [[g s] a]]; reflexivity).
  destruct (fst r =? x); [reflexivity|exact IH].
Qed.

(** ** Checks over the finite tables *)
Definition row_okb (r : row) : bool :=
  let '(c, (g, s, a)) := r in
  (0x80 <=? c) && (c <? 0x100) && (to_attribute (RStr g) =? rule_attr g) &&
  (to_attribute (RStr s) =? rule_attr s) && (to_attribute (RStr a) =? rule_attr a).

Lemma all_rows_ok : forallb row_okb all_rows = true.
Proof. vm_compute. reflexivity. Qed.

Lemma std_entry_in g c e : std_entry_of g c = Some e -> In e (scsl_table ++ mra_table).
Proof. unfold std_entry_of. intros H. apply find_some in H. destruct H as (H & _). now apply in_rev. Qed.

Lemma std_rows_in g c r : In r (std_rows g c) -> In r all_rows.
Proof.
  unfold std_rows. destruct (std_entry_of g c) as [[[[n gr] cl] rows]|] eqn:E; [|intros []].
  intros H. apply std_entry_in in E. unfold all_rows. apply in_flat_map. eexists. split; [exact E|exact H].
Qed.
Lemma object_rows_in g c r : In r (object_rows g c) -> In r all_rows.
Proof. unfold object_rows. rewrite in_app_iff. intros [H|H]; exact (std_rows_in _ _ _ H). Qed.

Lemma row_matches r : In r all_rows -> matches_row (row_property r) r /\ 0x80 <= op_code (row_property r) < 0x100.
Proof.
  intros H. pose proof all_rows_ok as A. rewrite forallb_forall in A. specialize (A r H).
  destruct r as [c [[g s] a]]. unfold row_okb in A. unfold matches_row, row_property, std_property. cbn [fst snd op_code op_get op_set op_anno].
  rewrite !andb_true_iff in A. destruct A as ((((A1 & A2) & A3) & A4) & A5). 
  apply Z.eqb_eq in A3, A4, A5. rewrite A3, A4, A5. repeat split; lia.
Qed.

(** ** Copying standard properties into an object *)
Section WithSet.
Context {PS : PySet}.

Definition std_props (g c : Z) : list oprop := map row_property (std_rows g c).

Lemma super_add_frame p o o' r : add_property_super p o = (o', r) ->
  o_code o' = o_code o /\ o_name o' = o_name o /\ o_handler o' = o_handler o /\ o_cls o' = o_cls o /\
  o_obs o' = o_obs o /\ o_calls o' = o_calls o.
Proof.
  assert (FD : forall c d o, fst (set_property_data c d o) = o \/ exists ps, fst (set_property_data c d o) = set_o_props ps o).
  { intros c d x. unfold set_property_data. destruct (get_property c x); cbn; eauto. }
  assert (FM : forall c m o o' r, set_property_map c m o = (o', r) -> exists ps, o' = set_o_props ps o).
  { intros c m x x' r'. assert (I : x = set_o_props (o_props x) x) by (destruct x; reflexivity).
    unfold set_property_map. destruct (negb (has_property c x)); [intros [= <- _]; eauto|].
    destruct (bytes_of (zlen m :: m)); [|intros [= <- _]; eauto].
    destruct (is_format1 (zlen m)).
    - destruct (set_property_data c a x) as [y b] eqn:E. intros [= <- _]. destruct (FD c a x) as [F|(ps & F)]; rewrite E in F; cbn in F; subst; eauto.
    - destruct (bytes_of (Z.of_nat PROPERTYMAP_FORMAT2_MAP_SIZE :: map2_encode m)) as [a2|]; [|intros [= <- _]; eauto].
      destruct (set_property_data c a2 x) as [y b] eqn:E. intros [= <- _]. destruct (FD c a2 x) as [F|(ps & F)]; rewrite E in F; cbn in F; subst; eauto. }
  assert (FU : forall o o' r, update_property_maps o = (o', r) -> exists ps, o' = set_o_props ps o).
  { intros x x' r'. unfold update_property_maps.
    destruct (set_property_map ANNO_PROPERTY_MAP _ x) as [o1 r1] eqn:E1. destruct (FM _ _ _ _ _ E1) as (p1 & ->).
    destruct r1 as [[]|]; [|intros [= <- _]; eauto|intros [= <- _]; eauto].
    destruct (set_property_map GET_PROPERTY_MAP _ _) as [o2 r2] eqn:E2. destruct (FM _ _ _ _ _ E2) as (p2 & ->).
    destruct r2 as [[]|]; [|intros [= <- _]; exists p2; reflexivity|intros [= <- _]; exists p2; reflexivity].
    intros E3. destruct (FM _ _ _ _ _ E3) as (p3 & ->). exists p3. reflexivity. }
  unfold add_property_super. destruct p as [p|]; cbn [add_property_base].
  - destruct (update_property_maps _) as [o2 r2] eqn:E. destruct (FU _ _ _ E) as (ps & ->).
    destruct r2; intros [= <- _]; repeat split.
  - intros [= <- _]. repeat split.
Qed.

Lemma update_frame o o' r : update_property_maps o = (o', r) -> exists ps, o' = set_o_props ps o.
Proof.
  assert (FD : forall c d o, fst (set_property_data c d o) = o \/ exists ps, fst (set_property_data c d o) = set_o_props ps o).
  { intros c d x. unfold set_property_data. destruct (get_property c x); cbn; eauto. }
  assert (FM : forall c m o o' r, set_property_map c m o = (o', r) -> exists ps, o' = set_o_props ps o).
  { intros c m x x' r'. assert (I : x = set_o_props (o_props x) x) by (destruct x; reflexivity).
    unfold set_property_map. destruct (negb (has_property c x)); [intros [= <- _]; eauto|].
    destruct (bytes_of (zlen m :: m)); [|intros [= <- _]; eauto].
    destruct (is_format1 (zlen m)).
    - destruct (set_property_data c a x) as [y b] eqn:E. intros [= <- _]. destruct (FD c a x) as [F|(ps & F)]; rewrite E in F; cbn in F; subst; eauto.
    - destruct (bytes_of (Z.of_nat PROPERTYMAP_FORMAT2_MAP_SIZE :: map2_encode m)) as [a2|]; [|intros [= <- _]; eauto].
      destruct (set_property_data c a2 x) as [y b] eqn:E. intros [= <- _]. destruct (FD c a2 x) as [F|(ps & F)]; rewrite E in F; cbn in F; subst; eauto. }
  unfold update_property_maps.
  destruct (set_property_map ANNO_PROPERTY_MAP _ o) as [o1 r1] eqn:E1. destruct (FM _ _ _ _ _ E1) as (p1 & ->).
  destruct r1 as [[]|]; [|intros [= <- _]; eauto|intros [= <- _]; eauto].
  destruct (set_property_map GET_PROPERTY_MAP _ _) as [o2 r2] eqn:E2. destruct (FM _ _ _ _ _ E2) as (p2 & ->).
  destruct r2 as [[]|]; [|intros [= <- _]; exists p2; reflexivity|intros [= <- _]; exists p2; reflexivity].
  intros E3. destruct (FM _ _ _ _ _ E3) as (p3 & ->). exists p3. reflexivity.
Qed.

Lemma add_all_frame ps : forall o o' r, add_all ps o = (o', r) ->
  o_code o' = o_code o /\ o_name o' = o_name o /\ o_handler o' = o_handler o /\ o_cls o' = o_cls o /\
  o_obs o' = o_obs o /\ o_calls o' = o_calls o.
Proof.
  induction ps as [|p ps IH]; intros o o' r; cbn [add_all].
  - intros [= <- _]. repeat split.
  - destruct (add_property_super (Some p) o) as [o1 [b|e]] eqn:E; apply super_add_frame in E.
    + intros H. apply IH in H. decompose [and] E. decompose [and] H. repeat split; congruence.
    + intros [= <- _]. exact E.
Qed.

(** Tracking is unaffected by duplicates: a list with the same last additions. *)
Lemma tracks_ext t ps ps' : (forall x, last_added x ps = last_added x ps') -> tracks t ps -> tracks t ps'.
Proof. intros H (N & T). split; [assumption|]. intros x. rewrite <- H. apply T. Qed.

Lemma copy_std_ok g c o base : 
  tracks (o_props o) base -> code_range o ->
  exists o', copy_std (option_map build_object (std_entry_of g c)) o = (o', Ok tt) /\
    tracks (o_props o') (base ++ std_props g c) /\ code_range o' /\
    o_code o' = o_code o /\ o_handler o' = o_handler o /\ o_cls o' = o_cls o.
Proof.
  intros T R. unfold std_props, std_rows. destruct (std_entry_of g c) as [[[[n gr] cl] rows]|] eqn:E; cbn [option_map copy_std].
  2:{ exists o. cbn [map]. rewrite app_nil_r. auto 10. }
  set (e := (n, gr, cl, rows)) in *. pose proof (build_props e) as (TB & I & G). fold e in TB.
  unfold set_object_properties.
  assert (VR : forall p, In p (dvals (o_props (build_object e))) -> 0x80 <= op_code p < 0x100).
  { intros p Hp. apply I in Hp. apply in_map_iff in Hp. destruct Hp as (r & <- & Hr).
    apply row_matches. unfold all_rows. apply in_flat_map. exists e. split; [exact (std_entry_in _ _ _ E)|exact Hr]. }
  destruct (add_all_ok (dvals (o_props (build_object e))) (set_o_name (o_name (build_object e)) o) base T R VR)
    as (o' & A & T' & R').
  rewrite A. cbn [obind]. pose proof (add_all_frame _ _ _ _ A) as (F1 & _ & F3 & F4 & _).
  exists o'. split; [reflexivity|]. split; [|split; [assumption|repeat split; assumption]].
  eapply tracks_ext; [|exact T']. intros x. rewrite !last_added_app.
  rewrite last_added_dvals; [|apply TB|apply (tracks_wf _ _ TB)]. rewrite G. reflexivity.
Qed.

Lemma db_get_int c : db_get_object (PInt c) = option_map build_object (std_entry_of (group_of c) (class_of c)).
Proof. unfold db_get_object. cbn [set_code negb]. rewrite group_code_of, class_code_of. apply std_lookup. Qed.

Lemma db_get_ok a code : set_code CODE_UNKNOWN a = (code, true) ->
  db_get_object a = option_map build_object (std_entry_of (group_of code) (class_of code)).
Proof. intros H. unfold db_get_object. rewrite H. cbn [negb]. rewrite group_code_of, class_code_of. apply std_lookup. Qed.

Lemma super_has_maps : forall c, In c [0x9D; 0x9E; 0x9F] -> exists p, In p (std_props 0 0) /\ op_code p = c.
Proof.
  assert (E : forallb (fun c => existsb (fun p => op_code p =? c) (std_props 0 0)) [0x9D; 0x9E; 0x9F] = true) by (vm_compute; reflexivity).
  rewrite forallb_forall in E. intros c Hc. specialize (E c Hc). apply existsb_exists in E.
  destruct E as (p & Hp & Ep). exists p. split; [assumption|lia].
Qed.

Lemma has_maps_of o ps : tracks (o_props o) ps -> (forall c, In c [0x9D; 0x9E; 0x9F] -> exists p, In p ps /\ op_code p = c) ->
  has_maps o.
Proof. intros T H. repeat split; apply (has_maps_ps o _ T); apply H; cbn; auto. Qed.

Lemma with_maps_tracks o ps : tracks (o_props o) ps -> tracks (o_props (with_maps o)) ps.
Proof. intros T. unfold with_maps. now repeat apply tracks_data. Qed.
Lemma with_maps_has o x : has_property x (with_maps o) = has_property x o.
Proof. unfold with_maps. now rewrite !has_data. Qed.
(** The standard object of a class. *)
Definition std_ps (code : Z) : list oprop := std_props 0 0 ++ std_props (group_of code) (class_of code).

Lemma set_code_indep cur cur' a code : set_code cur a = (code, true) -> set_code cur' a = (code, true).
Proof.
  destruct a as [c|l|c| |]; cbn [set_code]; try (intros H; exact H); try discriminate.
  destruct l as [|x [|y [|z [|w l]]]]; cbn [set_code]; try (intros H; exact H); discriminate.
Qed.

Lemma new_standard_ok a code : set_code CODE_UNKNOWN a = (code, true) ->
  exists o1, new_standard a = (with_maps o1, Ok tt) /\ tracks (o_props o1) (std_ps code) /\ code_range o1 /\
    has_maps o1 /\ o_code o1 = code /\ o_handler o1 = HSuper /\ o_cls o1 = CStandard.
Proof.
  intros H. unfold new_standard, standard_set_code. cbn [o_code]. rewrite H. cbn [negb].
  set (o0 := set_o_code code (mkobj CODE_UNKNOWN "" [] HSuper 0 [] CStandard)).
  assert (T0 : tracks (o_props o0) []) by (split; [constructor|intros x; reflexivity]).
  assert (R0 : code_range o0) by (intros x Hx; discriminate).
  rewrite (db_get_int SUPER_CODE), (db_get_ok a code H).
  change (group_of SUPER_CODE) with 0. change (class_of SUPER_CODE) with 0.
  destruct (copy_std_ok 0 0 o0 [] T0 R0) as (o1 & E1 & T1 & R1 & C1 & H1 & K1). rewrite E1. cbn [obind app] in *.
  destruct (copy_std_ok (group_of code) (class_of code) o1 _ T1 R1) as (o2 & E2 & T2 & R2 & C2 & H2 & K2). rewrite E2. cbn [obind].
  assert (M : has_maps o2).
  { apply (has_maps_of o2 _ T2). intros c Hc. destruct (super_has_maps c Hc) as (p & Hp & Ep).
    exists p. split; [apply in_app_iff; now left|assumption]. }
  rewrite (update_maps_ok o2 _ T2 R2 M). cbn [obind]. exists o2. split; [reflexivity|].
  split; [exact T2|]. split; [exact R2|]. split; [exact M|].
  rewrite C2, C1, H2, H1, K2, K1. repeat split.
Qed.

End WithSet.

(** ** C56 *)
Lemma object_rows_ps code : std_ps code = map row_property (object_rows (group_of code) (class_of code)).
Proof. unfold std_ps, std_props, object_rows. now rewrite map_app. Qed.

Lemma tracks_row o code x : tracks (o_props o) (std_ps code) ->
  match row_for x (object_rows (group_of code) (class_of code)) with
  | Some r => exists p, get_property x o = Some p /\ matches_row p r
  | None => get_property x o = None
  end.
Proof.
  intros (_ & T). specialize (T x). rewrite object_rows_ps, last_added_row in T.
  change (zget x (o_props o)) with (get_property x o) in T.
  destruct (row_for x (object_rows (group_of code) (class_of code))) as [r|] eqn:R; cbn [option_map] in T.
  - destruct (get_property x o) as [p|]; [|contradiction]. exists p. split; [reflexivity|].
    unfold row_for in R. apply find_some in R. destruct R as (R & _). apply in_rev in R. apply object_rows_in in R.
    destruct (row_matches r R) as ((M1 & M2 & M3 & M4) & _). destruct T as (S & S').
    unfold same_attr, matches_row in *. decompose [and] S. decompose [and] S'. repeat split; congruence.
  - destruct (get_property x o); [contradiction|reflexivity].
Qed.

Lemma L_C56_standard_properties : forall (PS : PySet) a code, set_code 0 a = (code, true) ->
  exists o, new_standard a = (o, Ok tt) /\ o_code o = code /\ o_handler o = HSuper /\
    forall x, match row_for x (object_rows (group_of code) (class_of code)) with
              | Some r => exists p, get_property x o = Some p /\ matches_row p r
              | None => get_property x o = None
              end.
Proof.
  intros PS a code H. destruct (new_standard_ok a code H) as (o & E & T & R & M & C & Hd & K).
  exists (with_maps o). split; [assumption|].
  assert (F : exists ps, with_maps o = set_o_props ps o).
  { pose proof (update_maps_ok o _ T R M) as U. exact (update_frame _ _ _ U). }
  destruct F as (ps & F). split; [rewrite F; exact C|]. split; [rewrite F; exact Hd|].
  intros x. apply tracks_row. now apply with_maps_tracks.
Qed.

Lemma own_map_of (PS : PySet) o ps f : attr_only f -> tracks (o_props o) ps -> code_range o ->
  own_codes (map_of f o) f (with_maps o).
Proof.
  intros Hf T R. destruct (map_of_ok f o ps Hf T R) as (_ & _ & N & _ & I).
  split; [assumption|]. intros x. rewrite I. destruct (with_maps_tracks o ps T) as (_ & T'). specialize (T' x).
  change (zget x (o_props (with_maps o))) with (get_property x (with_maps o)) in T'.
  split.
  - intros (q & L & Hq). rewrite L in T'. destruct (get_property x (with_maps o)) as [p|]; [|contradiction].
    exists p. split; [reflexivity|]. rewrite (Hf p q); [assumption|]. apply T'.
  - intros (p & L & Hp). rewrite L in T'. destruct (last_added x ps) as [q|]; [|contradiction].
    exists q. split; [reflexivity|]. rewrite <- (Hf p q); [assumption|]. apply T'.
Qed.

Lemma L_C56_maps_partial : forall (PS : PySet) a code, set_code 0 a = (code, true) ->
  exists o, new_standard a = (o, Ok tt) /\
    forall mc f, In (mc, f) map_kinds -> exists m d, own_codes m f o /\ get_property_data mc o = Some d /\
      ((length m <= 15)%nat -> property_map_codes d = MapCodes m) /\
      ((16 <= length m)%nat -> exists l, property_map_codes d = MapCodes l /\
         (same_codes l m <-> length m = 16%nat /\ forall c, In c m -> c < 0xC0)).
Proof.
  intros PS a code H. destruct (new_standard_ok a code H) as (o & E & T & R & M & C & Hd & K).
  exists (with_maps o). split; [assumption|]. intros mc f Hk.
  exists (map_of f o), (map_data (map_of f o)).
  destruct (map_of_ok f o _ (kind_attr _ _ Hk) T R) as (_ & _ & N & B & I).
  split; [now apply (own_map_of PS o (std_ps code)); [apply (kind_attr _ _ Hk)| |]|].
  split; [now apply with_maps_data|]. split.
  - intros L. unfold map_data, is_format1, PROPERTYMAP_FORMAT1_MAX_SIZE.
    replace (zlen (map_of f o) <=? 15) with true by (unfold zlen; lia). now apply decode1.
  - intros L. rewrite map_data2 by assumption. eexists. split; [now apply map2_roundtrip|].
    apply map2_exact; try assumption. now apply map2_roundtrip.
Qed.

Definition light_read : list Z := 
  nodup Z.eq_dec (map op_code (filter (fun p => match last_added (op_code p) (std_ps 0x029101) with Some q => is_read_enabled q | None => false end) (std_ps 0x029101))).
Lemma light_read_len : length light_read = 25%nat.
Proof. vm_compute. reflexivity. Qed.

Lemma light_read_in x : In x light_read -> exists q, last_added x (std_ps 0x029101) = Some q /\ is_read_enabled q = true.
Proof.
  unfold light_read. rewrite nodup_In, in_map_iff. intros (p & <- & Hp). apply filter_In in Hp. destruct Hp as (_ & Hp).
  destruct (last_added (op_code p) (std_ps 0x029101)) as [q|]; [|discriminate]. eauto.
Qed.

Lemma light_read_nodup : NoDup light_read.
Proof. apply NoDup_nodup. Qed.
Local Opaque light_read std_ps.
Lemma L_C56_maps_refuted : forall (PS : PySet), exists a o m d l,
  new_standard a = (o, Ok tt) /\ own_codes m is_read_enabled o /\
  get_property_data 0x9F o = Some d /\ property_map_codes d = MapCodes l /\ ~ same_codes l m.
Proof.
  intros PS. set (a := PInt 0x029101).
  destruct (new_standard_ok a 0x029101 eq_refl) as (o & E & T & R & M & C & Hd & K).
  destruct (map_of_ok is_read_enabled o _ attr_only_get T R) as (_ & _ & N & B & I).
  assert (L : (25 <= length (map_of is_read_enabled o))%nat).
  { rewrite <- light_read_len. apply NoDup_incl_length; [exact light_read_nodup|]. intros x Hx. apply I. exact (light_read_in x Hx). }
  exists a, (with_maps o), (map_of is_read_enabled o), (map_data (map_of is_read_enabled o)). eexists.
  split; [assumption|]. split; [now apply (own_map_of PS o _ _ attr_only_get T R)|].
  split; [apply with_maps_data; [cbn; tauto|assumption]|]. rewrite map_data2 by lia.
  pose proof (map2_roundtrip _ B) as RT. split; [exact RT|].
  rewrite (map2_exact _ B N ltac:(lia) _ RT). lia.
Qed.

(** ** C57 *)
Lemma rule_enabled s : marked_plainly s -> rule_attr s = 1 \/ rule_attr s = 2.
Proof. intros [<-|[<-|[<-|[]]]]; cbn; auto. Qed.

Lemma L_C57_rules_partial : forall (PS : PySet) a code x r, set_code 0 a = (code, true) ->
  row_for x (object_rows (group_of code) (class_of code)) = Some r ->
  exists o p, new_standard a = (o, Ok tt) /\ get_property x o = Some p /\
    (marked_plainly (fst (fst (snd r))) -> is_read_enabled p = true) /\
    (marked_plainly (snd (fst (snd r))) -> is_write_enabled p = true) /\
    (marked_plainly (snd (snd r)) -> is_announce_enabled p = true).
Proof.
  intros PS a code x r H Hr. destruct (L_C56_standard_properties PS a code H) as (o & E & _ & _ & G).
  specialize (G x). rewrite Hr in G. destruct G as (p & Gp & (M1 & M2 & M3 & M4)).
  exists o, p. split; [assumption|]. split; [assumption|].
  unfold is_read_enabled, is_write_enabled, is_announce_enabled, attribute_enabled, REQUIRED, OPTIONAL.
  rewrite M2, M3, M4. repeat split; intros K; apply rule_enabled in K; destruct K as [-> | ->]; reflexivity.
Qed.

Lemma L_C57_rules_refuted : forall (PS : PySet), exists a code x r o p, set_code 0 a = (code, true) /\
  row_for x (object_rows (group_of code) (class_of code)) = Some r /\ marked (fst (fst (snd r))) /\
  new_standard a = (o, Ok tt) /\ get_property x o = Some p /\ is_read_enabled p = false.
Proof.
  intros PS. set (r := (0xE0, (r_rc, r_na, r_o)) : row).
  assert (Hr : row_for 0xE0 (object_rows (group_of 0x00D001) (class_of 0x00D001)) = Some r) by (vm_compute; reflexivity).
  destruct (L_C56_standard_properties PS (PInt 0x00D001) 0x00D001 eq_refl) as (o & E & _ & _ & G).
  specialize (G 0xE0). rewrite Hr in G. destruct G as (p & Gp & (M1 & M2 & M3 & M4)).
  exists (PInt 0x00D001), 0x00D001, 0xE0, r, o, p. 
  split; [reflexivity|]. split; [exact Hr|]. split; [cbn; tauto|]. split; [assumption|]. split; [assumption|].
  unfold is_read_enabled, attribute_enabled. rewrite M2. reflexivity.
Qed.

(** ** C58 *)
Local Opaque manufacturer_table.
Lemma man_get c t : forall d, zget c (fold_left (fun d e => zset (fst e) (snd e) d) t d)
  = match find (fun e : Z * string => fst e =? c) (rev t) with Some e => Some (snd e) | None => zget c d end.
Proof.
  induction t as [|e t IH]; intros d; [reflexivity|]. cbn [fold_left rev]. rewrite IH, find_app.
  destruct (find _ (rev t)); [reflexivity|]. rewrite zget_zset. cbn [find]. rewrite (Z.eqb_sym c).
  destruct (fst e =? c); reflexivity.
Qed.

Lemma L_C58_manufacturer : forall c, get_manufacturer (MAInt c) = manufacturer_of c /\
  get_manufacturer_name (MAInt c) = option_map snd (manufacturer_of c) /\
  (forall b, bytes_ok b -> be_val b = c -> get_manufacturer (MABytes b) = manufacturer_of c) /\
  (forall n, 0 <= c < 256 ^ Z.of_nat n -> get_manufacturer (MABytes (be n c)) = manufacturer_of c).
Proof.
  intros c. assert (G : forall a, (match a with MAInt c => c | MABytes b => to_int b | MAOther => 0 end) = c ->
    get_manufacturer a = manufacturer_of c).
  { intros a E. unfold get_manufacturer. rewrite E. unfold all_manufacturers. rewrite man_get. unfold manufacturer_of.
    destruct (find (fun e : Z * string => fst e =? c) (rev manufacturer_table)) as [[k n]|] eqn:F; [|reflexivity].
    apply find_some in F. cbn [fst snd] in *. destruct F as (_ & F). apply Z.eqb_eq in F. subst. reflexivity. }
  split; [now apply G|]. split.
  { unfold get_manufacturer_name. rewrite (G (MAInt c)) by reflexivity. destruct (manufacturer_of c); reflexivity. }
  split.
  - intros b _ E. apply G. now rewrite to_int_be_val.
  - intros n H. apply G. rewrite to_int_be_val, be_val_be. now apply Z.mod_small.
Qed.

(** ** Only the property maps of a new standard object have data *)
Definition blank (o : obj) : Prop := forall x p, get_property x o = Some p -> ~ In x [0x9D; 0x9E; 0x9F] -> op_data p = [].
Lemma blank_data c d o : In c [0x9D; 0x9E; 0x9F] -> blank o -> blank (fst (set_property_data c d o)).
Proof.
  intros I B x p. rewrite set_property_data_get. destruct (Z.eqb_spec c x) as [<-|]; [intros _ N; contradiction|apply B].
Qed.
Lemma blank_map c l o o' r : In c [0x9D; 0x9E; 0x9F] -> blank o -> set_property_map c l o = (o', r) -> blank o'.
Proof.
  intros I B. unfold set_property_map. destruct (negb (has_property c o)); [intros [= <- _]; exact B|].
  destruct (bytes_of (zlen l :: l)) as [b|]; [|intros [= <- _]; exact B]. destruct (is_format1 (zlen l)).
  - pose proof (blank_data c b o I B) as D. destruct (set_property_data c b o) as [y z]. intros [= <- _]. exact D.
  - destruct (bytes_of (Z.of_nat PROPERTYMAP_FORMAT2_MAP_SIZE :: map2_encode l)) as [b2|]; [|intros [= <- _]; exact B].
    pose proof (blank_data c b2 o I B) as D. destruct (set_property_data c b2 o) as [y z]. intros [= <- _]. exact D.
Qed.
Lemma blank_update (PS : PySet) o o' r : blank o -> update_property_maps o = (o', r) -> blank o'.
Proof.
  intros B. unfold update_property_maps.
  assert (I : In ANNO_PROPERTY_MAP [0x9D; 0x9E; 0x9F] /\ In GET_PROPERTY_MAP [0x9D; 0x9E; 0x9F] /\ In SET_PROPERTY_MAP [0x9D; 0x9E; 0x9F]) by (unfold ANNO_PROPERTY_MAP, GET_PROPERTY_MAP, SET_PROPERTY_MAP; cbn [In]; auto 10).
  destruct I as (I1 & I2 & I3).
  destruct (set_property_map ANNO_PROPERTY_MAP _ o) as [o1 r1] eqn:E1. pose proof (blank_map _ _ _ _ _ I1 B E1) as B1.
  destruct r1 as [[]|]; [|intros [= <- _]; exact B1|intros [= <- _]; exact B1].
  destruct (set_property_map GET_PROPERTY_MAP _ o1) as [o2 r2] eqn:E2. pose proof (blank_map _ _ _ _ _ I2 B1 E2) as B2.
  destruct r2 as [[]|]; [|intros [= <- _]; exact B2|intros [= <- _]; exact B2].
  intros E3. exact (blank_map _ _ _ _ _ I3 B2 E3).
Qed.
Lemma blank_add_all (PS : PySet) ps : (forall p, In p ps -> op_data p = []) -> forall o o' r, blank o -> add_all ps o = (o', r) -> blank o'.
Proof.
  induction ps as [|p ps IH]; intros D o o' r B; cbn [add_all]; [intros [= <- _]; exact B|].
  unfold add_property_super. cbn [add_property_base].
  assert (B1 : blank (set_o_props (zset (op_code p) p (o_props o)) o)).
  { intros x q. unfold get_property. cbn [o_props set_o_props]. rewrite zget_zset. destruct (x =? op_code p).
    - intros H _. assert (q = p) by congruence. subst q. apply D. now left.
    - apply B. }
  destruct (update_property_maps _) as [o2 [b|e]] eqn:U; pose proof (blank_update PS _ _ _ B1 U) as B2.
  - apply IH; [|exact B2]. intros q Q. apply D. now right.
  - intros [= <- _]. exact B2.
Qed.
Lemma row_blank r : op_data (row_property r) = [].
Proof. destruct r as [c [[g s] a]]. reflexivity. Qed.
Lemma blank_copy (PS : PySet) e o o' r : blank o -> copy_std (option_map build_object e) o = (o', r) -> blank o'.
Proof.
  intros B. destruct e as [e|]; cbn [option_map copy_std]; [|intros [= <- _]; exact B]. unfold set_object_properties.
  destruct (add_all _ _) as [o1 r1] eqn:A.
  assert (B1 : blank o1).
  { refine (blank_add_all PS _ _ (set_o_name (o_name (build_object e)) o) o1 r1 B A). intros p Hp.
    pose proof (build_props e) as BP. destruct e as [[[n g] c] rows]. destruct BP as (_ & I & _). apply I in Hp.
    apply in_map_iff in Hp. destruct Hp as (row & <- & _). apply row_blank. }
  destruct r1; cbn [obind]; intros [= <- _]; exact B1.
Qed.
Lemma blank_standard (PS : PySet) a code : set_code CODE_UNKNOWN a = (code, true) -> blank (fst (new_standard a)).
Proof.
  intros H. unfold new_standard, standard_set_code. cbn [o_code]. rewrite H. cbn [negb].
  set (o0 := set_o_code code (mkobj CODE_UNKNOWN "" [] HSuper 0 [] CStandard)).
  assert (B0 : blank o0) by (intros x p G; discriminate).
  rewrite (db_get_int SUPER_CODE), (db_get_ok a code H).
  generalize (std_entry_of (group_of SUPER_CODE) (class_of SUPER_CODE)) (std_entry_of (group_of code) (class_of code)). intros e1 e2.
  pose proof (blank_copy PS e1 o0) as C1. destruct (copy_std (option_map build_object e1) o0) as [o1 r1]. specialize (C1 o1 r1 B0 eq_refl).
  destruct r1; [|exact C1]. cbn [obind].
  pose proof (blank_copy PS e2 o1) as C2. destruct (copy_std (option_map build_object e2) o1) as [o2 r2]. specialize (C2 o2 r2 C1 eq_refl).
  destruct r2; [|exact C2]. cbn [obind].
  pose proof (blank_update PS o2) as C3. destruct (update_property_maps o2) as [o3 r3]. specialize (C3 o3 r3 C2 eq_refl).
  destruct r3; exact C3.
Qed.
Lemma L_C56_no_data : forall (PS : PySet) a code o, set_code 0 a = (code, true) -> new_standard a = (o, Ok tt) ->
  forall x p, get_property x o = Some p -> ~ In x [0x9D; 0x9E; 0x9F] -> op_data p = [].
Proof.
  intros PS a code o H N. pose proof (blank_standard PS a code H) as B. rewrite N in B. exact B.
Qed.
