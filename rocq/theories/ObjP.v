(** Lemmas about object codes, property attributes and property tables (C11-C14, C63). *)
From Verif Require Import PyBase BytesM MsgM PropM ObjM DbData DbM SpecWire SpecObj DictP BytesP.
Require Import ZifyBool.

(** ** Bit arithmetic *)

Lemma land_255 x : Z.land x 255 = x mod 256.
Proof. change 255 with (Z.ones 8). rewrite Z.land_ones by lia. reflexivity. Qed.

Lemma group_code_of c : group_code c = group_of c.
Proof. unfold group_code, group_of. rewrite land_255, Z.shiftr_div_pow2 by lia. reflexivity. Qed.
Lemma class_code_of c : class_code c = class_of c.
Proof. unfold class_code, class_of. rewrite land_255, Z.shiftr_div_pow2 by lia. reflexivity. Qed.
Lemma instance_code_of c : instance_code c = instance_of c.
Proof. unfold instance_code, instance_of. apply land_255. Qed.

Lemma lor_disjoint x n a : 0 <= n -> 0 <= a < 2 ^ n -> Z.lor (x * 2 ^ n) a = x * 2 ^ n + a.
Proof.
  intros Hn Ha.
  assert (L : Z.land (x * 2 ^ n) a = 0).
  { apply Z.bits_inj'. intros i Hi. rewrite Z.land_spec, Z.bits_0.
    destruct (Z.lt_ge_cases i n) as [H|H].
    - rewrite Z.mul_pow2_bits_low by lia. reflexivity.
    - replace a with (a mod 2 ^ n) by (apply Z.mod_small; lia).
      rewrite Z.mod_pow2_bits_high by lia. apply andb_false_r. }
  rewrite (Z.add_nocarry_lxor _ _ L). symmetry. apply Z.lxor_lor. exact L.
Qed.

Lemma tuple3_code g c i :
  set_instance_code i (set_class_code c (set_group_code g 0))
  = compose (g mod 256) (c mod 256) (i mod 256).
Proof.
  unfold set_instance_code, set_class_code, set_group_code, compose.
  rewrite !land_255, Z.lor_0_l, !Z.shiftl_mul_pow2 by lia.
  pose proof (Z.mod_pos_bound g 256). pose proof (Z.mod_pos_bound c 256).
  pose proof (Z.mod_pos_bound i 256).
  rewrite (lor_disjoint (g mod 256) 16 (c mod 256 * 2 ^ 8)) by lia.
  replace (g mod 256 * 2 ^ 16 + c mod 256 * 2 ^ 8) with ((g mod 256 * 256 + c mod 256) * 2 ^ 8) by lia.
  rewrite lor_disjoint by lia. lia.
Qed.

Lemma tuple2_code g c :
  set_class_code c (set_group_code g 0) = compose (g mod 256) (c mod 256) 0.
Proof.
  unfold set_class_code, set_group_code, compose.
  rewrite !land_255, Z.lor_0_l, !Z.shiftl_mul_pow2 by lia.
  pose proof (Z.mod_pos_bound g 256). pose proof (Z.mod_pos_bound c 256).
  rewrite (lor_disjoint (g mod 256) 16 (c mod 256 * 2 ^ 8)) by lia. lia.
Qed.

Lemma compose_parts g c i : byte_ok g -> byte_ok c -> byte_ok i ->
  group_of (compose g c i) = g /\ class_of (compose g c i) = c /\ instance_of (compose g c i) = i.
Proof.
  unfold byte_ok, group_of, class_of, instance_of, compose. intros.
  Z.to_euclidean_division_equations. lia.
Qed.

Lemma parts_compose x : 0 <= x < 2 ^ 24 ->
  compose (group_of x) (class_of x) (instance_of x) = x.
Proof.
  unfold group_of, class_of, instance_of, compose. intros.
  Z.to_euclidean_division_equations. lia.
Qed.

(** ** C11 *)
Lemma L_C11_set_code_tuple : forall cur g c i, byte_ok g -> byte_ok c -> byte_ok i ->
  set_code cur (PTup [g; c; i]) = (compose g c i, true) /\
  set_code cur (PTup [g; c]) = (compose g c 0, true) /\
  group_code (compose g c i) = g /\ class_code (compose g c i) = c /\
  instance_code (compose g c i) = i.
Proof.
  intros cur g c i Hg Hc Hi. cbn [set_code]. rewrite tuple3_code, tuple2_code.
  rewrite group_code_of, class_code_of, instance_code_of.
  pose proof (compose_parts g c i Hg Hc Hi) as (A & B & C). unfold byte_ok in *.
  rewrite !Z.mod_small by assumption. repeat split; assumption.
Qed.

Lemma L_C11_int_vs_tuple : forall cur cur' x, 0 <= x < 2 ^ 24 ->
  set_code cur (PTup [group_code x; class_code x; instance_code x]) = set_code cur' (PInt x).
Proof.
  intros cur cur' x Hx. cbn [set_code]. rewrite tuple3_code.
  rewrite group_code_of, class_code_of, instance_code_of. f_equal.
  unfold group_of, class_of, instance_of. rewrite !Z.mod_mod by lia.
  exact (parts_compose x Hx).
Qed.

Lemma L_C11_is_code : forall x,
  (forall c, is_code x (PInt c) = true <-> x = c) /\
  (forall c, is_code x (PObj c) = true <-> x = c) /\
  (forall g, is_code x (PTup [g]) = true <-> group_of x = g) /\
  (forall g c, is_code x (PTup [g; c]) = true <-> group_of x = g /\ class_of x = c) /\
  (forall g c i, is_code x (PTup [g; c; i]) = true <->
     group_of x = g /\ class_of x = c /\ instance_of x = i) /\
  (forall l, (length l = 0 \/ 3 < length l)%nat -> is_code x (PTup l) = false) /\
  is_code x PNone = false /\ is_code x POther = false /\
  (forall g, is_group x g = true <-> group_of x = g) /\
  (forall g c, is_class x g c = true <-> group_of x = g /\ class_of x = c).
Proof.
  intros x.
  assert (H1 : forall g, is_code x (PTup [g]) = true <-> group_of x = g).
  { intros g. cbn [is_code]. rewrite group_code_of. destruct (Z.eqb_spec (group_of x) g); cbn [negb]; split; congruence. }
  assert (H2 : forall g c, is_code x (PTup [g; c]) = true <-> group_of x = g /\ class_of x = c).
  { intros g c. cbn [is_code]. rewrite group_code_of, class_code_of.
    destruct (Z.eqb_spec (group_of x) g); cbn [negb]; [|split; [discriminate|tauto]].
    destruct (Z.eqb_spec (class_of x) c); cbn [negb]; split; try discriminate; tauto. }
  repeat match goal with |- _ /\ _ => split end; try reflexivity; try assumption.
  - intros c. cbn [is_code]. destruct (Z.eqb_spec x c); split; congruence.
  - intros c. cbn [is_code]. destruct (Z.eqb_spec x c); split; congruence.
  - intros g c i. cbn [is_code]. rewrite group_code_of, class_code_of, instance_code_of.
    destruct (Z.eqb_spec (group_of x) g); cbn [negb]; [|split; [discriminate|tauto]].
    destruct (Z.eqb_spec (class_of x) c); cbn [negb]; [|split; [discriminate|tauto]].
    destruct (Z.eqb_spec (instance_of x) i); cbn [negb]; split; try discriminate; tauto.
  - intros l Hl. destruct l as [|a [|b [|c [|d l]]]]; cbn [length] in Hl; try lia; reflexivity.
Qed.

(** ** C12 *)
Lemma group_set_group g x : group_code (set_group_code g x) = Z.lor (group_code x) (g mod 256).
Proof.
  unfold group_code, set_group_code. rewrite Z.shiftr_lor, Z.land_lor_distr_l.
  rewrite Z.shiftr_shiftl_l by lia. change (16 - 16) with 0. rewrite Z.shiftl_0_r.
  rewrite <- Z.land_assoc, Z.land_diag, !land_255. reflexivity.
Qed.
Lemma class_set_class c x : class_code (set_class_code c x) = Z.lor (class_code x) (c mod 256).
Proof.
  unfold class_code, set_class_code. rewrite Z.shiftr_lor, Z.land_lor_distr_l.
  rewrite Z.shiftr_shiftl_l by lia. change (8 - 8) with 0. rewrite Z.shiftl_0_r.
  rewrite <- Z.land_assoc, Z.land_diag, !land_255. reflexivity.
Qed.
Lemma instance_set_instance i x :
  instance_code (set_instance_code i x) = Z.lor (instance_code x) (i mod 256).
Proof.
  unfold instance_code, set_instance_code. rewrite Z.land_lor_distr_l.
  rewrite <- Z.land_assoc, Z.land_diag, !land_255. reflexivity.
Qed.

Lemma land_low_shiftl y n : 8 <= n -> Z.land (Z.shiftl y n) 255 = 0.
Proof.
  intros H. rewrite land_255, Z.shiftl_mul_pow2 by lia.
  replace (y * 2 ^ n) with ((y * 2 ^ (n - 8)) * 256).
  - apply Z.mod_mul. lia.
  - change 256 with (2 ^ 8). rewrite <- Z.mul_assoc, <- Z.pow_add_r by lia. f_equal. f_equal. lia.
Qed.
Lemma shiftr_byte y : Z.shiftr (Z.land y 255) 8 = 0.
Proof.
  rewrite land_255, Z.shiftr_div_pow2 by lia. apply Z.div_small.
  pose proof (Z.mod_pos_bound y 256). lia.
Qed.

Lemma set_group_frame g x :
  class_code (set_group_code g x) = class_code x /\ instance_code (set_group_code g x) = instance_code x.
Proof.
  unfold class_code, instance_code, set_group_code. split.
  - rewrite Z.shiftr_lor, Z.land_lor_distr_l, Z.shiftr_shiftl_l by lia.
    rewrite land_low_shiftl by lia. apply Z.lor_0_r.
  - rewrite Z.land_lor_distr_l, land_low_shiftl by lia. apply Z.lor_0_r.
Qed.
Lemma set_class_frame c x :
  group_code (set_class_code c x) = group_code x /\ instance_code (set_class_code c x) = instance_code x.
Proof.
  unfold group_code, instance_code, set_class_code. split.
  - rewrite Z.shiftr_lor, Z.land_lor_distr_l.
    change 16 with (8 + 8) at 2. rewrite <- Z.shiftr_shiftr by lia.
    rewrite Z.shiftr_shiftl_l by lia. change (8 - 8) with 0. rewrite Z.shiftl_0_r, shiftr_byte.
    rewrite Z.land_0_l. apply Z.lor_0_r.
  - rewrite Z.land_lor_distr_l, land_low_shiftl by lia. apply Z.lor_0_r.
Qed.
Lemma set_instance_frame i x :
  group_code (set_instance_code i x) = group_code x /\ class_code (set_instance_code i x) = class_code x.
Proof.
  unfold group_code, class_code, set_instance_code. split.
  - rewrite Z.shiftr_lor, Z.land_lor_distr_l.
    change 16 with (8 + 8) at 2. rewrite <- (Z.shiftr_shiftr (Z.land i 255)) by lia.
    rewrite shiftr_byte, Z.shiftr_0_l, Z.land_0_l. apply Z.lor_0_r.
  - rewrite Z.shiftr_lor, Z.land_lor_distr_l, shiftr_byte, Z.land_0_l. apply Z.lor_0_r.
Qed.

Lemma L_C12_setters_refuted :
  (exists x g, byte_ok g /\ group_code (set_group_code g x) <> g) /\
  (exists x c, byte_ok c /\ class_code (set_class_code c x) <> c) /\
  (exists x i, byte_ok i /\ instance_code (set_instance_code i x) <> i).
Proof.
  split; [|split].
  - exists 0x029101, 0x01. split; [unfold byte_ok; lia|]. vm_compute. discriminate.
  - exists 0x029101, 0x90. split; [unfold byte_ok; lia|]. vm_compute. discriminate.
  - exists 0x029101, 0x02. split; [unfold byte_ok; lia|]. vm_compute. discriminate.
Qed.

Lemma lor_sub a b : Z.lor a b = b <-> Z.land a b = a.
Proof.
  split; intros H; apply Z.bits_inj'; intros i Hi;
    apply (f_equal (fun x => Z.testbit x i)) in H; revert H; rewrite Z.lor_spec, Z.land_spec;
    destruct (Z.testbit a i), (Z.testbit b i); cbn; congruence.
Qed.

Lemma L_C12_setters_partial : forall x v, byte_ok v ->
  (group_code (set_group_code v x) = Z.lor (group_of x) v /\
   class_code (set_group_code v x) = class_of x /\
   instance_code (set_group_code v x) = instance_of x) /\
  (class_code (set_class_code v x) = Z.lor (class_of x) v /\
   group_code (set_class_code v x) = group_of x /\
   instance_code (set_class_code v x) = instance_of x) /\
  (instance_code (set_instance_code v x) = Z.lor (instance_of x) v /\
   group_code (set_instance_code v x) = group_of x /\
   class_code (set_instance_code v x) = class_of x) /\
  (group_code (set_group_code v x) = v <-> Z.land (group_of x) v = group_of x) /\
  (group_of x = 0 -> group_code (set_group_code v x) = v) /\
  (class_of x = 0 -> class_code (set_class_code v x) = v) /\
  (instance_of x = 0 -> instance_code (set_instance_code v x) = v).
Proof.
  intros x v Hv. unfold byte_ok in Hv.
  rewrite group_set_group, class_set_class, instance_set_instance.
  rewrite (Z.mod_small v) by assumption.
  destruct (set_group_frame v x) as [-> ->]. destruct (set_class_frame v x) as [-> ->].
  destruct (set_instance_frame v x) as [-> ->].
  rewrite !group_code_of, !class_code_of, !instance_code_of.
  do 3 (split; [repeat split; reflexivity|]).
  split; [apply lor_sub|].
  repeat split; intros ->; apply Z.lor_0_l.
Qed.

(** ** C13 *)
Lemma L_C13_object_argument_refuted :
  (exists cur c, set_code cur (PObj c) = (c, false) /\ cur <> c) /\
  (exists c, db_get_object (PObj c) = None /\ db_get_object (PInt c) <> None).
Proof.
  split.
  - exists 0, 0x029101. split; [reflexivity|discriminate].
  - exists 0x029101. split; [reflexivity|]. vm_compute. discriminate.
Qed.

Lemma L_C13_set_code_partial : forall cur,
  (forall c, set_code cur (PInt c) = (c, true)) /\
  (forall g c, exists x, set_code cur (PTup [g; c]) = (x, true)) /\
  (forall g c i, exists x, set_code cur (PTup [g; c; i]) = (x, true)) /\
  (forall c, fst (set_code cur (PObj c)) = c) /\
  set_code cur PNone = (cur, false) /\ set_code cur POther = (cur, false) /\
  (forall l, length l <> 2%nat -> length l <> 3%nat -> set_code cur (PTup l) = (cur, false)) /\
  (forall g c, byte_ok g -> byte_ok c ->
     db_get_object (PTup [g; c]) = db_get_object (PInt (compose g c 0))) /\
  (forall g c i, byte_ok g -> byte_ok c -> byte_ok i ->
     db_get_object (PTup [g; c; i]) = db_get_object (PInt (compose g c i))) /\
  (forall l, length l <> 2%nat -> length l <> 3%nat -> db_get_object (PTup l) = None) /\
  db_get_object PNone = None /\ db_get_object POther = None.
Proof.
  intros cur.
  assert (HT : forall cur l, length l <> 2%nat -> length l <> 3%nat -> set_code cur (PTup l) = (cur, false)).
  { intros cur' l H2 H3. destruct l as [|a [|b [|c [|d l]]]]; cbn [length] in *; try lia; reflexivity. }
  repeat match goal with |- _ /\ _ => split end; try reflexivity; auto.
  - intros. eexists. reflexivity.
  - intros. eexists. reflexivity.
  - intros g c Hg Hc. unfold db_get_object.
    destruct (L_C11_set_code_tuple CODE_UNKNOWN g c 0 Hg Hc) as (_ & -> & _); [unfold byte_ok; lia|].
    reflexivity.
  - intros g c i Hg Hc Hi. unfold db_get_object.
    destruct (L_C11_set_code_tuple CODE_UNKNOWN g c i Hg Hc Hi) as (-> & _). reflexivity.
  - intros l H2 H3. unfold db_get_object. rewrite HT by assumption. reflexivity.
Qed.

(** ** C14 *)
Lemma set_property_data_get c d o k :
  get_property k (fst (set_property_data c d o)) =
  if c =? k then match get_property k o with Some p => Some (set_op_data d p) | None => None end
  else get_property k o.
Proof.
  unfold set_property_data, get_property.
  destruct (zget c (o_props o)) as [p|] eqn:E; cbn [fst o_props set_o_props].
  - rewrite zget_zset. rewrite (Z.eqb_sym k c). destruct (Z.eqb_spec c k) as [->|]; [now rewrite E|reflexivity].
  - destruct (Z.eqb_spec c k) as [->|]; [now rewrite E|reflexivity].
Qed.

Lemma set_property_data_keys c d o :
  dkeys (o_props (fst (set_property_data c d o))) = dkeys (o_props o).
Proof.
  unfold set_property_data, get_property.
  destruct (zget c (o_props o)) as [p|] eqn:E; cbn [fst o_props set_o_props]; [|reflexivity].
  rewrite zkeys_zset, E. reflexivity.
Qed.

Lemma from_int_spec v n : from_int v n = match int_bytes v n with Some d => Ok d | None => Err ValueError end.
Proof. unfold from_int, int_bytes. destruct (n <? 0); [reflexivity|]. now rewrite from_int_n_be. Qed.

Lemma table_step_get op o k : get_property k (table_step o op) =
  match op with
  | TAdd p => if op_code p =? k then Some p else get_property k o
  | TData c d =>
      if c =? k then match get_property k o with Some p => Some (set_op_data d p) | None => None end
      else get_property k o
  | TInt c v n =>
      match int_bytes v n with
      | Some d =>
        if c =? k then match get_property k o with Some p => Some (set_op_data d p) | None => None end
        else get_property k o
      | None => get_property k o
      end
  end.
Proof.
  destruct op as [p|c d|c v n]; cbn [table_step].
  - cbn [add_property_base fst]. unfold get_property. cbn [o_props set_o_props].
    rewrite zget_zset, Z.eqb_sym. reflexivity.
  - apply set_property_data_get.
  - unfold set_property_integer. rewrite from_int_spec. destruct (int_bytes v n) as [d|]; [|reflexivity].
    rewrite <- set_property_data_get. destruct (set_property_data c d o). reflexivity.
Qed.

Lemma table_step_keys op o : dkeys (o_props (table_step o op)) =
  match op with
  | TAdd p => if isSome (zget (op_code p) (o_props o)) then dkeys (o_props o)
              else dkeys (o_props o) ++ [op_code p]
  | _ => dkeys (o_props o)
  end.
Proof.
  destruct op as [p|c d|c v n]; cbn [table_step].
  - cbn [add_property_base fst o_props set_o_props]. apply zkeys_zset.
  - apply set_property_data_keys.
  - unfold set_property_integer. destruct (from_int v n) as [d|]; [|reflexivity].
    pose proof (set_property_data_keys c d o) as H. destruct (set_property_data c d o). exact H.
Qed.

Lemma table_run_get h : forall k,
  get_property k (table_run h (new_object PNone)) = table_spec k (rev h).
Proof.
  induction h as [|op h IH] using rev_ind; intros k; [reflexivity|].
  unfold table_run in *. rewrite fold_left_app. cbn [fold_left].
  rewrite table_step_get. rewrite rev_app_distr. cbn [rev app table_spec].
  destruct op; rewrite IH; reflexivity.
Qed.

Lemma first_codes_app seen h op :
  first_codes seen (h ++ [op]) = first_codes seen h ++
  match op with
  | TAdd p => if existsb (Z.eqb (op_code p)) (seen ++ first_codes seen h) then [] else [op_code p]
  | _ => []
  end.
Proof.
  revert seen; induction h as [|o h IH]; intros seen.
  - cbn [app first_codes]. rewrite app_nil_r. destruct op; cbn [first_codes]; try reflexivity.
  - cbn [app first_codes]. destruct o as [p|c d|c v n].
    + destruct (existsb (Z.eqb (op_code p)) seen) eqn:E; [apply IH|].
      rewrite IH. cbn [app]. f_equal. f_equal. destruct op as [q| |]; try reflexivity.
      replace (existsb (Z.eqb (op_code q)) (op_code p :: seen ++ first_codes (op_code p :: seen) h))
        with (existsb (Z.eqb (op_code q)) (seen ++ op_code p :: first_codes (op_code p :: seen) h)); [reflexivity|].
      cbn [existsb]. rewrite !existsb_app. cbn [existsb]. rewrite !orb_assoc. f_equal. apply orb_comm.
    + apply IH.
    + apply IH.
Qed.

Lemma existsb_eqb_in k l : existsb (Z.eqb k) l = true <-> In k l.
Proof.
  rewrite existsb_exists. split.
  - intros (x & H & E). apply Z.eqb_eq in E. now subst.
  - intros H. exists k. split; [assumption|apply Z.eqb_refl].
Qed.

Lemma table_run_keys h : dkeys (o_props (table_run h (new_object PNone))) = first_codes [] h.
Proof.
  induction h as [|op h IH] using rev_ind; [reflexivity|].
  unfold table_run in *. rewrite fold_left_app. cbn [fold_left].
  rewrite table_step_keys, first_codes_app. destruct op as [p| |]; cbn [app].
  - rewrite <- IH. set (d := o_props (fold_left table_step h (new_object PNone))).
    destruct (zget (op_code p) d) as [v|] eqn:E; cbn [isSome].
    + assert (In (op_code p) (dkeys d)) as Hin by (apply zget_some; eauto).
      apply existsb_eqb_in in Hin. rewrite Hin. now rewrite app_nil_r.
    + apply zget_none in E. destruct (existsb (Z.eqb (op_code p)) (dkeys d)) eqn:X; [|reflexivity].
      apply existsb_eqb_in in X. contradiction.
  - now rewrite app_nil_r.
  - now rewrite app_nil_r.
Qed.

Lemma nodup_first_codes h : forall seen, NoDup (first_codes seen h) /\
  (forall x, In x seen -> ~ In x (first_codes seen h)).
Proof.
  induction h as [|op h IH]; intros seen; cbn [first_codes].
  - split; [constructor|auto].
  - destruct op as [p| |]; try apply IH.
    destruct (existsb (Z.eqb (op_code p)) seen) eqn:E; [apply IH|].
    destruct (IH (op_code p :: seen)) as [A B]. split.
    + constructor; [|assumption]. apply B. now left.
    + intros x Hx [Ex|Hy].
      * subst x. apply existsb_eqb_in in Hx. congruence.
      * apply (B x); [now right|assumption].
Qed.

Lemma L_C14_table_is_map : forall h,
  let o := table_run h (new_object PNone) in
  (forall code, get_property code o = table_spec code (rev h)) /\
  (forall code, get_property_data code o
     = match table_spec code (rev h) with Some p => Some (op_data p) | None => None end) /\
  (forall code, has_property code o = true <->
     exists p, In (TAdd p) h /\ op_code p = code) /\
  dkeys (o_props o) = first_codes [] h /\ NoDup (dkeys (o_props o)) /\
  (forall code data, (~ exists p, In (TAdd p) h /\ op_code p = code) ->
     set_property_data code data o = (o, false)).
Proof.
  intros h o.
  assert (HG : forall code, get_property code o = table_spec code (rev h)).
  { intros. apply table_run_get. }
  assert (HH : forall code, isSome (table_spec code (rev h)) = true <->
            exists p, In (TAdd p) h /\ op_code p = code).
  { intros code. clear HG. subst o.
    assert (R : forall l, isSome (table_spec code l) = true <->
            exists p, In (TAdd p) l /\ op_code p = code).
    { induction l as [|op l IH]; cbn [table_spec isSome].
      - split; [discriminate|]. intros (p & [] & _).
      - assert (E : (exists p, In (TAdd p) (op :: l) /\ op_code p = code) <->
                  ((exists p, op = TAdd p /\ op_code p = code) \/ (exists p, In (TAdd p) l /\ op_code p = code))).
        { split.
          - intros (p & [->|H] & C); [left|right]; eauto.
          - intros [(p & -> & C)|(p & H & C)]; exists p; cbn [In]; auto. }
        rewrite E, <- IH. clear E.
        destruct op as [p|c d|c v n].
        + destruct (Z.eqb_spec (op_code p) code) as [Ec|Ec]; cbn [isSome].
          * split; [|reflexivity]. intros _. left. eauto.
          * split; [tauto|]. intros [(q & Eq & C)|H]; [|assumption]. injection Eq as ->. contradiction.
        + destruct (c =? code); destruct (table_spec code l); cbn [isSome];
            (split; [tauto|]); intros [(q & Eq & C)|H]; try discriminate; auto.
        + destruct (int_bytes v n); destruct (c =? code); destruct (table_spec code l); cbn [isSome];
            (split; [tauto|]); intros [(q & Eq & C)|H]; try discriminate; auto. }
    rewrite R. split; intros (p & H & C); exists p; (split; [|assumption]); [now apply in_rev|now rewrite <- in_rev]. }
  repeat match goal with |- _ /\ _ => split end.
  - exact HG.
  - intros code. unfold get_property_data. rewrite <- HG. reflexivity.
  - intros code. unfold has_property. rewrite HG. apply HH.
  - apply table_run_keys.
  - unfold o. rewrite table_run_keys. apply nodup_first_codes.
  - intros code data Hn. unfold set_property_data. rewrite HG.
    destruct (table_spec code (rev h)) eqn:E; [|reflexivity].
    exfalso. apply Hn, HH. rewrite E. reflexivity.
Qed.

(** ** C63 *)
Lemma enabled_iff v : attribute_enabled v = true <-> v = 1 \/ v = 2.
Proof. unfold attribute_enabled, REQUIRED, OPTIONAL. destruct (Z.eqb_spec v 1), (Z.eqb_spec v 2); split; try discriminate; lia. Qed.
Lemma required_iff v : attribute_required v = true <-> v = 1.
Proof. unfold attribute_required, REQUIRED. destruct (Z.eqb_spec v 1); split; try discriminate; lia. Qed.

Lemma L_C63_access_predicates : forall p,
  (is_read_enabled p = true <-> op_get p = 1 \/ op_get p = 2) /\
  (is_write_enabled p = true <-> op_set p = 1 \/ op_set p = 2) /\
  (is_announce_enabled p = true <-> op_anno p = 1 \/ op_anno p = 2) /\
  (is_read_required p = true <-> op_get p = 1) /\
  (is_write_required p = true <-> op_set p = 1) /\
  (is_announce_required p = true <-> op_anno p = 1) /\
  (is_mandatory p = true <-> op_get p = 1 \/ op_set p = 1 \/ op_anno p = 1).
Proof.
  intros p. repeat match goal with |- _ /\ _ => split end;
    try apply enabled_iff; try apply required_iff.
  unfold is_mandatory, REQUIRED. cbn [existsb]. rewrite !orb_true_iff, !Z.eqb_eq. 
  split; [intuition discriminate|tauto].
Qed.

Lemma L_C63_set_attribute : forall p v,
  set_attribute 0 v p = (mkoprop (op_code p) (op_data p) v (op_set p) (op_anno p), Ok tt) /\
  set_attribute 1 v p = (mkoprop (op_code p) (op_data p) (op_get p) v (op_anno p), Ok tt) /\
  set_attribute 2 v p = (mkoprop (op_code p) (op_data p) (op_get p) (op_set p) v, Ok tt) /\
  (forall t q, set_attribute t v p = (q, Ok tt) -> get_attribute t q = Ok v) /\
  (forall t, (t < -3 \/ 2 < t) -> set_attribute t v p = (p, Err IndexError)).
Proof.
  intros p v. repeat match goal with |- _ /\ _ => split end; try reflexivity.
  - intros t q. unfold set_attribute, get_attribute.
    destruct ((t =? ATTR_GET) || (t =? -3)); [intros [= <-]; reflexivity|].
    destruct ((t =? ATTR_SET) || (t =? -2)); [intros [= <-]; reflexivity|].
    destruct ((t =? ATTR_ANNO) || (t =? -1)); [intros [= <-]; reflexivity|]. discriminate.
  - intros t Ht. unfold set_attribute, ATTR_GET, ATTR_SET, ATTR_ANNO.
    repeat match goal with |- context [?a =? ?b] => destruct (Z.eqb_spec a b); [lia|] end. reflexivity.
Qed.
