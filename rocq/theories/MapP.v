(** Lemmas about property maps (C15-C17). *)
From Verif Require Import PyBase BytesM MsgM PropM ObjM SpecWire SpecMap DictP BytesP ObjP.
Require Import ZifyBool.
From Coq Require Import Permutation.

(** ** Decoder *)

Definition hit (bm : list Z) (i j : nat) : list Z :=
  if Z.testbit (nth i bm 0) (Z.of_nat j) && (j <? 4)%nat
  then [0x80 + 0x10 * Z.of_nat j + Z.of_nat i] else [].
Definition hits (bm : list Z) : list Z :=
  flat_map (fun i => flat_map (hit bm i) (seq 0 8)) (seq 0 16).

Lemma land_pow2_zero b k : 0 <= k -> (Z.land b (2 ^ k) =? 0) = negb (Z.testbit b k).
Proof.
  intros Hk. destruct (Z.testbit b k) eqn:E; cbn [negb].
  - apply Z.eqb_neq. intros H. apply (f_equal (fun x => Z.testbit x k)) in H.
    rewrite Z.land_spec, E, Z.pow2_bits_true, Z.bits_0 in H by lia. discriminate.
  - apply Z.eqb_eq. apply Z.bits_inj'. intros i Hi. rewrite Z.land_spec, Z.bits_0.
    destruct (Z.eq_dec i k) as [->|Hn]; [now rewrite E|].
    rewrite Z.pow2_bits_false by lia. apply andb_false_r.
Qed.

Lemma land_bit b j : (j < 8)%nat ->
  (Z.land b (Z.land (Z.shiftl 1 (Z.of_nat j)) 0x0F) =? 0)
  = negb (Z.testbit b (Z.of_nat j) && (j <? 4)%nat).
Proof.
  intros Hj.
  do 8 (destruct j as [|j]; [
    match goal with
    | |- context [Z.land b (Z.land ?x ?y)] => let v := eval compute in (Z.land x y) in change (Z.land x y) with v
    end;
    match goal with
    | |- context [Z.testbit b (Z.of_nat ?k)] =>
        let z := eval compute in (Z.of_nat k) in change (Z.of_nat k) with z;
        let t := eval compute in (k <? 4)%nat in change (k <? 4)%nat with t
    end;
    first [ rewrite andb_true_r; match goal with |- context [Z.testbit b ?k] => exact (land_pow2_zero b k ltac:(lia)) end
          | rewrite andb_false_r, Z.land_0_r; reflexivity ] |]).
  lia.
Qed.

(** State of the decoder after finding the codes [acc]. *)
Definition dstate (n : nat) (acc : list Z) : list Z * nat :=
  (firstn n acc ++ repeat 0 (n - length acc), Nat.min n (length acc)).

Lemma dstate_push n acc c : (length acc < n)%nat ->
  (upd (firstn n acc ++ repeat 0 (n - length acc)) (length acc) c, S (length acc)) = dstate n (acc ++ [c]).
Proof.
  intros H. unfold dstate. rewrite app_length. cbn [length].
  rewrite !firstn_all2 by (rewrite ?app_length; cbn [length]; lia).
  replace (n - length acc)%nat with (S (n - length acc - 1))%nat by lia. cbn [repeat].
  rewrite upd_app_last. rewrite <- app_assoc. cbn [app]. f_equal; [|lia].
  f_equal. f_equal. f_equal. lia.
Qed.

Lemma dstate_full n acc c : (n <= length acc)%nat -> dstate n (acc ++ [c]) = dstate n acc.
Proof.
  intros H. unfold dstate. rewrite app_length. cbn [length]. f_equal; [|lia].
  rewrite firstn_app. replace (n - length acc)%nat with 0%nat by lia.
  replace (n - (length acc + 1))%nat with 0%nat by lia. cbn [firstn repeat]. now rewrite !app_nil_r.
Qed.

Lemma map2_step_hit cnt bm i j acc : (j < 8)%nat -> 0 <= cnt ->
  map2_step (cnt :: bm) cnt i (dstate (Z.to_nat cnt) acc) j
  = dstate (Z.to_nat cnt) (acc ++ hit bm i j).
Proof.
  intros Hj Hc. unfold map2_step, hit.
  destruct (dstate (Z.to_nat cnt) acc) as [codes idx] eqn:E.
  replace (nth (i + 1) (cnt :: bm) 0) with (nth i bm 0) by (rewrite Nat.add_1_r; reflexivity).
  rewrite land_bit by assumption.
  destruct (Z.testbit (nth i bm 0) (Z.of_nat j) && (j <? 4)%nat); cbn [negb].
  - unfold dstate in E. injection E as <- <-.
    destruct (Z.leb_spec cnt (Z.of_nat (Nat.min (Z.to_nat cnt) (length acc)))) as [H|H].
    + rewrite dstate_full by lia. reflexivity.
    + replace (Nat.min (Z.to_nat cnt) (length acc)) with (length acc) by lia.
      replace (0x10 * Z.of_nat j + PROP_CODE_MIN + Z.of_nat i) with (0x80 + 0x10 * Z.of_nat j + Z.of_nat i)
        by (unfold PROP_CODE_MIN; lia).
      apply dstate_push. lia.
  - rewrite app_nil_r. symmetry. exact E.
Qed.

Lemma inner_fold cnt bm i l acc : 0 <= cnt -> (forall j, In j l -> (j < 8)%nat) ->
  fold_left (map2_step (cnt :: bm) cnt i) l (dstate (Z.to_nat cnt) acc)
  = dstate (Z.to_nat cnt) (acc ++ flat_map (hit bm i) l).
Proof.
  intros Hc. revert acc; induction l as [|j l IH]; intros acc H; cbn [fold_left flat_map].
  - now rewrite app_nil_r.
  - rewrite map2_step_hit by (auto; apply H; now left). rewrite IH by (intros; apply H; now right).
    now rewrite app_assoc.
Qed.

Lemma outer_fold cnt bm l acc : 0 <= cnt ->
  fold_left (fun st i => fold_left (map2_step (cnt :: bm) cnt i) (seq 0 8) st) l (dstate (Z.to_nat cnt) acc)
  = dstate (Z.to_nat cnt) (acc ++ flat_map (fun i => flat_map (hit bm i) (seq 0 8)) l).
Proof.
  intros Hc. revert acc; induction l as [|i l IH]; intros acc; cbn [fold_left flat_map].
  - now rewrite app_nil_r.
  - rewrite inner_fold; [|assumption|intros j Hj; apply in_seq in Hj; lia].
    rewrite IH. now rewrite app_assoc.
Qed.

Lemma dstate_nil n : dstate n [] = (repeat 0 n, O).
Proof. unfold dstate. cbn [length]. rewrite firstn_nil, Nat.sub_0_r, Nat.min_0_r. reflexivity. Qed.

Lemma decode2 cnt bm : 16 <= cnt -> length bm = 16%nat ->
  property_map_codes (cnt :: bm)
  = MapCodes (firstn (Z.to_nat cnt) (hits bm) ++ repeat 0 (Z.to_nat cnt - length (hits bm))).
Proof.
  intros Hc Hl. unfold property_map_codes, is_format1, PROPERTYMAP_FORMAT1_MAX_SIZE, PROPERTYMAP_FORMAT2_MAP_SIZE.
  destruct (Z.leb_spec cnt 15); [lia|]. cbn [length]. rewrite Hl. change (17 =? 16 + 1)%nat with true. cbn [negb].
  rewrite <- dstate_nil, outer_fold by lia. reflexivity.
Qed.

Lemma decode1 codes : (length codes <= 15)%nat ->
  property_map_codes (zlen codes :: codes) = MapCodes codes.
Proof.
  intros H. unfold property_map_codes, is_format1, PROPERTYMAP_FORMAT1_MAX_SIZE.
  destruct (Z.leb_spec (zlen codes) 15) as [_|C]; [|unfold zlen in C; lia].
  unfold zlen. cbn [length]. rewrite Nat2Z.inj_succ.
  replace (Z.succ (Z.of_nat (length codes)) =? Z.of_nat (length codes) + 1) with true by lia. cbn [negb].
  f_equal. rewrite Nat2Z.id. clear H.
  transitivity (map (fun n => nth n codes 0) (seq 0 (length codes))).
  - apply map_ext. intros n. rewrite Nat.add_1_r. reflexivity.
  - induction codes as [|c codes IH]; [reflexivity|]. cbn [length seq map nth]. f_equal.
    rewrite <- seq_shift, map_map. exact IH.
Qed.

Lemma hit_in bm i j x : In x (hit bm i j) <->
  Z.testbit (nth i bm 0) (Z.of_nat j) = true /\ (j < 4)%nat /\ x = 0x80 + 0x10 * Z.of_nat j + Z.of_nat i.
Proof.
  unfold hit. destruct (Z.testbit (nth i bm 0) (Z.of_nat j)); cbn [andb].
  - destruct (Nat.ltb_spec j 4); cbn [In]; split; intros; try lia; intuition auto.
  - cbn [In]. split; [tauto|]. intros (D & _). discriminate.
Qed.

Lemma hits_in bm x : In x (hits bm) <-> exists i j, (i < 16)%nat /\ (j < 4)%nat /\
  Z.testbit (nth i bm 0) (Z.of_nat j) = true /\ x = 0x80 + 0x10 * Z.of_nat j + Z.of_nat i.
Proof.
  unfold hits. rewrite in_flat_map. split.
  - intros (i & Hi & H). apply in_flat_map in H. destruct H as (j & Hj & H).
    apply in_seq in Hi, Hj. apply hit_in in H. exists i, j. intuition lia.
  - intros (i & j & Hi & Hj & T & E). exists i. split; [apply in_seq; lia|].
    apply in_flat_map. exists j. split; [apply in_seq; lia|]. apply hit_in. auto.
Qed.

Lemma nodup_app_intro {A} (a b : list A) :
  NoDup a -> NoDup b -> (forall x, In x a -> ~ In x b) -> NoDup (a ++ b).
Proof.
  induction a as [|x a IH]; intros Ha Hb H; [assumption|].
  inversion Ha as [|? ? Hx Ha']; subst. cbn [app]. constructor.
  - rewrite in_app_iff. intros [C|C]; [contradiction|]. apply (H x); [now left|assumption].
  - apply IH; auto. intros y Hy. apply H. now right.
Qed.

Lemma nodup_flat_map {A B} (f : A -> list B) l :
  (forall x, In x l -> NoDup (f x)) ->
  (forall x y b, In x l -> In y l -> In b (f x) -> In b (f y) -> x = y) ->
  NoDup l -> NoDup (flat_map f l).
Proof.
  intros H1 H2 H3. induction l as [|x l IH]; [constructor|]. cbn [flat_map].
  inversion H3 as [|? ? Hx Hl]; subst. apply nodup_app_intro.
  - apply H1. now left.
  - apply IH; auto.
    + intros; apply H1; now right.
    + intros y z b Hy Hz. apply H2; now right.
  - intros b Hb C. apply in_flat_map in C. destruct C as (y & Hy & Hby).
    assert (x = y) by (apply (H2 x y b); [now left|now right|assumption|assumption]). subst. contradiction.
Qed.

Lemma hits_nodup bm : NoDup (hits bm).
Proof.
  unfold hits. apply nodup_flat_map; [| |apply seq_NoDup].
  - intros i _. apply nodup_flat_map; [| |apply seq_NoDup].
    + intros j _. unfold hit. destruct (_ && _); repeat constructor. intros [].
    + intros j k b _ _ Hj Hk. apply hit_in in Hj, Hk. lia.
  - intros i k b Hi Hk Hb Hc. apply in_seq in Hi, Hk. apply in_flat_map in Hb, Hc.
    destruct Hb as (j & _ & Hb). destruct Hc as (j' & _ & Hc). apply hit_in in Hb, Hc. lia.
Qed.

Lemma hits_std codes bm :
  (forall i j, (i < 16)%nat -> (j < 8)%nat ->
       (Z.testbit (nth i bm 0) (Z.of_nat j) = true <->
        In (0x80 + 0x10 * Z.of_nat j + Z.of_nat i) codes)) ->
  forall x, In x (hits bm) <-> In x codes /\ 0x80 <= x < 0xC0.
Proof.
  intros H x. rewrite hits_in. split.
  - intros (i & j & Hi & Hj & T & ->). split; [apply H in T; auto; lia|lia].
  - intros (Hx & Hr).
    exists (Z.to_nat ((x - 0x80) mod 16)), (Z.to_nat ((x - 0x80) / 16)).
    pose proof (Z.mod_pos_bound (x - 0x80) 16). pose proof (Z.div_mod (x - 0x80) 16).
    assert (0 <= (x - 0x80) / 16 < 4).
    { split; [apply Z.div_pos; lia|apply Z.div_lt_upper_bound; lia]. }
    assert (E : x = 0x80 + 0x10 * Z.of_nat (Z.to_nat ((x - 0x80) / 16)) + Z.of_nat (Z.to_nat ((x - 0x80) mod 16))) by lia.
    split; [lia|]. split; [lia|]. split; [|assumption].
    apply H; [lia|lia|]. rewrite <- E. assumption.
Qed.

Lemma same_length codes l : NoDup codes -> same_codes l codes -> length l = length codes.
Proof.
  intros H (N & I). apply Nat.le_antisymm; apply NoDup_incl_length; auto; intros x; apply I.
Qed.

(** ** C17 *)
Lemma L_C17_format1 : forall codes data, std_map1 codes data ->
  property_map_codes data = MapCodes codes.
Proof. intros codes data (H & ->). now apply decode1. Qed.

Lemma L_C17_not_a_map : forall data, ~ map_shape data ->
  property_map_codes data = MapNone \/ property_map_codes data = MapFalse.
Proof.
  intros [|cnt rest] H; [now left|].
  unfold property_map_codes, is_format1, PROPERTYMAP_FORMAT1_MAX_SIZE, PROPERTYMAP_FORMAT2_MAP_SIZE.
  destruct (Z.leb_spec cnt 15) as [C|C].
  - destruct (Z.eqb_spec (zlen (cnt :: rest)) (cnt + 1)) as [E|E]; cbn [negb]; [|now right].
    exfalso. apply H. exists cnt, rest. split; [reflexivity|left]. unfold zlen in *. cbn [length] in E. lia.
  - destruct (Nat.eqb_spec (length (cnt :: rest)) (16 + 1)) as [E|E]; cbn [negb]; [|now left].
    exfalso. apply H. exists cnt, rest. split; [reflexivity|right]. cbn [length] in E. lia.
Qed.

Lemma L_C17_format2_partial : forall codes data, std_map2 codes data ->
  (exists low, same_codes low (filter (fun c => c <? 0xC0) codes) /\
     property_map_codes data = MapCodes (low ++ repeat 0 (length codes - length low))) /\
  ((forall c, In c codes -> c < 0xC0) ->
     exists l, property_map_codes data = MapCodes l /\ same_codes l codes).
Proof.
  intros codes data (bm & -> & Hl & Hb & Hn & Hd & Hr & H).
  pose proof (hits_std codes bm H) as HH. pose proof (hits_nodup bm) as HN.
  rewrite decode2 by (unfold zlen; lia). unfold zlen. rewrite Nat2Z.id.
  assert (HS : same_codes (hits bm) (filter (fun c => c <? 0xC0) codes)).
  { split; [assumption|]. intros x. rewrite HH, filter_In. split.
    - intros (A & B). split; [assumption|lia].
    - intros (A & B). split; [assumption|]. specialize (Hr x A). lia. }
  assert (HL : (length (hits bm) <= length codes)%nat).
  { apply NoDup_incl_length; [assumption|]. intros x Hx. apply HH in Hx. tauto. }
  rewrite firstn_all2 by assumption. split.
  - exists (hits bm). auto.
  - intros Hlow. exists (hits bm).
    assert (S : same_codes (hits bm) codes).
    { split; [assumption|]. intros x. rewrite HH. split; [tauto|]. intros A. split; [assumption|].
      specialize (Hr x A). specialize (Hlow x A). lia. }
    split; [|assumption]. rewrite (same_length codes _ Hd S), Nat.sub_diag. cbn [repeat]. now rewrite app_nil_r.
Qed.

Definition wit_codes : list Z :=
  [0x80;0x81;0x82;0x83;0x84;0x85;0x86;0x87;0x88;0x89;0x8A;0x8B;0x8C;0x8D;0x8E;0xC0]%Z.
Definition wit_map : list Z := 16 :: 17 :: repeat 1 14 ++ [0].

Lemma wit_std : std_map2 wit_codes wit_map.
Proof.
  exists (17 :: repeat 1 14 ++ [0]). split; [reflexivity|]. split; [reflexivity|].
  split; [repeat (apply Forall_cons; [unfold byte_ok; lia|]); apply Forall_nil|].
  split; [cbn; lia|].
  split; [repeat (apply NoDup_cons; [cbn; lia|]); apply NoDup_nil|].
  split; [intros c Hc; cbn in Hc; lia|].
  intros i j Hi Hj.
  assert (E : forallb (fun i => forallb (fun j =>
      Bool.eqb (Z.testbit (nth i (17 :: repeat 1 14 ++ [0]) 0) (Z.of_nat j))
               (existsb (Z.eqb (0x80 + 0x10 * Z.of_nat j + Z.of_nat i)) wit_codes)) (seq 0 8)) (seq 0 16) = true)
    by reflexivity.
  rewrite forallb_forall in E. specialize (E i ltac:(apply in_seq; lia)).
  rewrite forallb_forall in E. specialize (E j ltac:(apply in_seq; lia)).
  apply eqb_prop in E. rewrite E. apply existsb_eqb_in.
Qed.

Lemma L_C17_format2_refuted :
  (exists codes data l, std_map2 codes data /\ property_map_codes data = MapCodes l /\
     ~ same_codes l codes) /\
  (exists data l, (forall codes, ~ std_map1 codes data) /\ (forall codes, ~ std_map2 codes data) /\
     property_map_codes data = MapCodes l).
Proof.
  split.
  - exists wit_codes, wit_map. eexists. split; [exact wit_std|]. split; [vm_compute; reflexivity|].
    intros (_ & I). destruct (I 0xC0) as [_ I2]. cbn in I2. lia.
  - exists (16 :: repeat 0 16). eexists. split.
    { intros codes (H & E). injection E as E _. unfold zlen in E. lia. }
    split.
    { intros codes (bm & E & _ & _ & Hn & Hd & Hr & H). injection E as E <-.
      destruct codes as [|c codes]; [cbn in Hn; lia|].
      assert (Hc : 0x80 <= c < 0x100) by (apply Hr; now left).
      pose proof (Z.mod_pos_bound (c - 0x80) 16). pose proof (Z.div_mod (c - 0x80) 16).
      assert (0 <= (c - 0x80) / 16 < 8).
      { split; [apply Z.div_pos; lia|apply Z.div_lt_upper_bound; lia]. }
      destruct (H (Z.to_nat ((c - 0x80) mod 16)) (Z.to_nat ((c - 0x80) / 16))) as [_ K]; [lia|lia|].
      rewrite !Z2Nat.id in K by lia.
      assert (X : Z.testbit (nth (Z.to_nat ((c - 128) mod 16)) (repeat 0 16) 0) ((c - 128) / 16) = true).
      { apply K. left. lia. }
      rewrite nth_repeat, Z.bits_0 in X. discriminate. }
    vm_compute. reflexivity.
Qed.

(** ** Encoder *)
Definition enc_idx (c : Z) : nat := Z.to_nat (c mod 16).
Definition enc_bit (c : Z) : Z := ((c - 0x80) / 16) mod 16.

Lemma enc_idx_eq c : Z.to_nat (Z.land (c - PROP_CODE_MIN) 0x0F) = enc_idx c.
Proof.
  unfold enc_idx, PROP_CODE_MIN. change 0x0F with (Z.ones 4). rewrite Z.land_ones by lia. change (2 ^ 4) with 16.
  f_equal. replace (c - 0x80) with (c + (-8) * 16) by lia. apply Z.mod_add. lia.
Qed.
Lemma enc_bit_eq c :
  Z.land (Z.shiftr (Z.land (c - PROP_CODE_MIN) 0xF0) 4) 0x0F = enc_bit c.
Proof.
  unfold enc_bit, PROP_CODE_MIN. rewrite Z.shiftr_land. change (Z.shiftr 0xF0 4) with (Z.ones 4).
  change 0x0F with (Z.ones 4). rewrite <- Z.land_assoc, Z.land_diag, Z.land_ones by lia.
  rewrite Z.shiftr_div_pow2 by lia. reflexivity.
Qed.

Lemma nth_upd {A} (l : list A) i j v d : (i < length l)%nat ->
  nth j (upd l i v) d = if (i =? j)%nat then v else nth j l d.
Proof.
  revert i j; induction l as [|x l IH]; intros i j Hi; cbn [length] in Hi; [lia|].
  destruct i as [|i], j as [|j]; cbn [upd nth Nat.eqb]; try reflexivity. apply IH. lia.
Qed.

Definition enc_step (codes : list Z) (prop_code : Z) : list Z :=
  let idx := Z.to_nat (Z.land (prop_code - PROP_CODE_MIN) 0x0F) in
  let bit := Z.land (Z.shiftr (Z.land (prop_code - PROP_CODE_MIN) 0xF0) 4) 0x0F in
  upd codes idx (Z.lor (nth idx codes 0) (Z.land (Z.shiftl 1 bit) 0x0F)).

Lemma enc_idx_bound c : (enc_idx c < 16)%nat.
Proof. unfold enc_idx. pose proof (Z.mod_pos_bound c 16). lia. Qed.

Lemma enc_length l : forall acc, length acc = 16%nat -> length (fold_left enc_step l acc) = 16%nat.
Proof.
  induction l as [|c l IH]; intros acc H; [assumption|]. cbn [fold_left]. apply IH.
  unfold enc_step. now rewrite upd_length.
Qed.

Lemma shift_bit b j : 0 <= b -> 0 <= j ->
  Z.testbit (Z.land (Z.shiftl 1 b) 0x0F) j = (b =? j) && (j <? 4).
Proof.
  intros Hb Hj. rewrite Z.land_spec, Z.shiftl_mul_pow2, Z.mul_1_l by lia.
  change 0x0F with (Z.ones 4). f_equal.
  - destruct (Z.eqb_spec b j) as [->|H]; [apply Z.pow2_bits_true; lia|apply Z.pow2_bits_false; lia].
  - destruct (Z.ltb_spec j 4); [apply Z.ones_spec_low; lia|apply Z.ones_spec_high; lia].
Qed.

Lemma enc_testbit l : forall acc i j, length acc = 16%nat -> (i < 16)%nat -> 0 <= j ->
  Z.testbit (nth i (fold_left enc_step l acc) 0) j
  = Z.testbit (nth i acc 0) j
    || existsb (fun c => (enc_idx c =? i)%nat && ((enc_bit c =? j) && (j <? 4))) l.
Proof.
  induction l as [|c l IH]; intros acc i j Ha Hi Hj; cbn [fold_left existsb].
  - now rewrite orb_false_r.
  - rewrite IH by (try assumption; unfold enc_step; now rewrite upd_length).
    rewrite orb_assoc. f_equal. unfold enc_step. rewrite enc_idx_eq, enc_bit_eq.
    pose proof (enc_idx_bound c). rewrite nth_upd by lia.
    destruct (Nat.eqb_spec (enc_idx c) i) as [->|E]; cbn [andb]; [|now rewrite orb_false_r].
    rewrite Z.lor_spec, shift_bit; [reflexivity| |assumption].
    unfold enc_bit. pose proof (Z.mod_pos_bound ((c - 0x80) / 16) 16). lia.
Qed.

Lemma map2_encode_testbit l i j : (i < 16)%nat -> 0 <= j ->
  Z.testbit (nth i (map2_encode l) 0) j
  = existsb (fun c => (enc_idx c =? i)%nat && ((enc_bit c =? j) && (j <? 4))) l.
Proof.
  intros Hi Hj. change (map2_encode l) with (fold_left enc_step l (repeat 0 16)).
  rewrite enc_testbit by (try assumption; reflexivity). rewrite nth_repeat, Z.bits_0. reflexivity.
Qed.

Lemma map2_encode_length l : length (map2_encode l) = 16%nat.
Proof. change (map2_encode l) with (fold_left enc_step l (repeat 0 16)). now apply enc_length. Qed.

Lemma map2_encode_byte l : bytes_ok (map2_encode l).
Proof.
  apply Forall_forall. intros x Hx. apply In_nth with (d := 0) in Hx. destruct Hx as (i & Hi & <-).
  rewrite map2_encode_length in Hi. set (v := nth i (map2_encode l) 0).
  assert (B : forall j, 4 <= j -> Z.testbit v j = false).
  { intros j Hj. unfold v. rewrite map2_encode_testbit by lia.
    apply not_true_is_false. intros T. apply existsb_exists in T. destruct T as (c & _ & T).
    rewrite !andb_true_iff in T. lia. }
  assert (E : Z.land v (Z.ones 4) = v).
  { apply Z.bits_inj'. intros j Hj. rewrite Z.land_spec. destruct (Z.lt_ge_cases j 4).
    - rewrite Z.ones_spec_low by lia. apply andb_true_r.
    - rewrite B by lia. reflexivity. }
  rewrite Z.land_ones in E by lia. change (2 ^ 4) with 16 in E.
  pose proof (Z.mod_pos_bound v 16). unfold byte_ok. lia.
Qed.

Lemma enc_hits l : (forall c, In c l -> 0x80 <= c < 0x100) ->
  forall x, In x (hits (map2_encode l)) <-> In x l /\ x < 0xC0.
Proof.
  intros Hr x. rewrite hits_in. split.
  - intros (i & j & Hi & Hj & T & E). rewrite map2_encode_testbit in T by lia.
    apply existsb_exists in T. destruct T as (c & Hc & T).
    rewrite !andb_true_iff in T. destruct T as (T1 & T2 & T3).
    apply Nat.eqb_eq in T1. apply Z.eqb_eq in T2. apply Z.ltb_lt in T3.
    specialize (Hr c Hc). unfold enc_idx in T1. unfold enc_bit in T2.
    assert (c = x) as ->; [|split; [assumption|lia]].
    pose proof (Z.mod_pos_bound c 16). pose proof (Z.div_mod (c - 0x80) 16).
    assert (0 <= (c - 0x80) / 16 < 8).
    { split; [apply Z.div_pos; lia|apply Z.div_lt_upper_bound; lia]. }
    rewrite Z.mod_small in T2 by lia.
    assert ((c - 0x80) mod 16 = c mod 16).
    { replace (c - 0x80) with (c + (-8) * 16) by lia. apply Z.mod_add. lia. }
    lia.
  - intros (Hx & Hl). specialize (Hr x Hx).
    exists (enc_idx x), (Z.to_nat ((x - 0x80) / 16)).
    pose proof (enc_idx_bound x).
    pose proof (Z.mod_pos_bound x 16). pose proof (Z.div_mod (x - 0x80) 16).
    assert (0 <= (x - 0x80) / 16 < 4).
    { split; [apply Z.div_pos; lia|apply Z.div_lt_upper_bound; lia]. }
    assert ((x - 0x80) mod 16 = x mod 16).
    { replace (x - 0x80) with (x + (-8) * 16) by lia. apply Z.mod_add. lia. }
    split; [lia|]. split; [lia|]. split; [|unfold enc_idx; lia].
    rewrite map2_encode_testbit by lia. apply existsb_exists. exists x. split; [assumption|].
    rewrite Nat.eqb_refl. unfold enc_bit. rewrite Z.mod_small by lia. lia.
Qed.

(** ** C16 *)
Definition map2_data (codes : list Z) : list Z := 16 :: map2_encode codes.

Lemma map2_roundtrip codes : (forall c, In c codes -> 0x80 <= c < 0x100) ->
  property_map_codes (map2_data codes)
  = MapCodes (firstn 16 (hits (map2_encode codes)) ++ repeat 0 (16 - length (hits (map2_encode codes)))).
Proof. intros H. unfold map2_data. rewrite decode2; [reflexivity|lia|apply map2_encode_length]. Qed.

Lemma map2_exact codes : (forall c, In c codes -> 0x80 <= c < 0x100) -> NoDup codes ->
  (16 <= length codes)%nat ->
  forall l, property_map_codes (map2_data codes) = MapCodes l ->
  (same_codes l codes <-> length codes = 16%nat /\ forall c, In c codes -> c < 0xC0).
Proof.
  intros Hr Hd Hn l. rewrite map2_roundtrip by assumption. intros El.
  assert (El' : l = firstn 16 (hits (map2_encode codes)) ++ repeat 0 (16 - length (hits (map2_encode codes))))
    by congruence. subst l. clear El.
  pose proof (enc_hits codes Hr) as HH. pose proof (hits_nodup (map2_encode codes)) as HN.
  set (h := hits (map2_encode codes)) in *. split.
  - intros S. pose proof (same_length codes _ Hd S) as L. destruct S as (_ & I).
    rewrite app_length, firstn_length, repeat_length in L.
    assert (E : length codes = 16%nat) by lia. split; [assumption|].
    intros c Hc. pose proof (Hr c Hc) as R. apply I in Hc. apply in_app_iff in Hc.
    destruct Hc as [Hc|Hc].
    + assert (In c h) as Hh. { rewrite <- (firstn_skipn 16 h). apply in_app_iff. now left. }
      apply HH in Hh. tauto.
    + apply repeat_spec in Hc. lia.
  - intros (E & Hl).
    assert (S : same_codes h codes).
    { split; [assumption|]. intros x. rewrite HH. split; [tauto|]. intros A. split; [assumption|]. auto. }
    pose proof (same_length codes _ Hd S) as L.
    rewrite firstn_all2 by lia. rewrite L, E. cbn [repeat Nat.sub]. now rewrite app_nil_r.
Qed.

(** ** Maps of an object *)

Definition map_data (l : list Z) : list Z :=
  if is_format1 (zlen l) then zlen l :: l else map2_data l.

Lemma bytes_of_ok l : bytes_ok l -> bytes_of l = Ok l.
Proof.
  intros H. unfold bytes_of. replace (forallb byte_okb l) with true; [reflexivity|].
  symmetry. apply forallb_forall. intros x Hx. apply byte_okb_spec. 
  unfold bytes_ok in H. rewrite Forall_forall in H. auto.
Qed.

Lemma set_map_ok code l o : has_property code o = true -> bytes_ok l -> (length l <= 255)%nat ->
  set_property_map code l o = (fst (set_property_data code (map_data l) o), Ok true).
Proof.
  intros Hp Hb Hl. unfold set_property_map. rewrite Hp. cbn [negb].
  assert (B1 : bytes_ok (zlen l :: l)).
  { apply Forall_cons; [unfold byte_ok, zlen; lia|assumption]. }
  rewrite (bytes_of_ok _ B1).
  assert (T : forall d, set_property_data code d o = (fst (set_property_data code d o), true)).
  { intros d. unfold set_property_data. unfold has_property in Hp. destruct (get_property code o); [reflexivity|discriminate]. }
  unfold map_data. destruct (is_format1 (zlen l)).
  - rewrite T. reflexivity.
  - assert (B2 : bytes_ok (Z.of_nat PROPERTYMAP_FORMAT2_MAP_SIZE :: map2_encode l)).
    { apply Forall_cons; [unfold byte_ok, PROPERTYMAP_FORMAT2_MAP_SIZE; lia|apply map2_encode_byte]. }
    rewrite (bytes_of_ok _ B2). fold (map2_data l). change (Z.of_nat PROPERTYMAP_FORMAT2_MAP_SIZE :: map2_encode l) with (map2_data l).
    rewrite T. reflexivity.
Qed.

(** Same code and access attributes. *)
Definition same_attr (p q : oprop) : Prop :=
  op_code p = op_code q /\ op_get p = op_get q /\ op_set p = op_set q /\ op_anno p = op_anno q.
Definition attr_only (f : oprop -> bool) : Prop := forall p q, same_attr p q -> f p = f q.

Lemma same_attr_refl p : same_attr p p.
Proof. repeat split. Qed.
Lemma same_attr_sym p q : same_attr p q -> same_attr q p.
Proof. intros (A & B & C & D). repeat split; auto. Qed.
Lemma same_attr_trans p q r : same_attr p q -> same_attr q r -> same_attr p r.
Proof. intros (A & B & C & D) (A' & B' & C' & D'). repeat split; congruence. Qed.

(** The table holds the last added property of every code, up to its data. *)
Definition tracks (t : props) (ps : list oprop) : Prop :=
  NoDup (dkeys t) /\ forall x, match zget x t, last_added x ps with
            | Some p, Some q => same_attr p q /\ op_code p = x
            | None, None => True
            | _, _ => False
            end.

Lemma last_added_code x ps q : last_added x ps = Some q -> op_code q = x.
Proof.
  induction ps as [|p ps IH]; cbn [last_added]; [discriminate|].
  destruct (last_added x ps); [assumption|]. destruct (Z.eqb_spec (op_code p) x); congruence.
Qed.

Lemma last_added_snoc x ps p : last_added x (ps ++ [p]) =
  if op_code p =? x then Some p else last_added x ps.
Proof.
  induction ps as [|q ps IH]; cbn [app last_added]; [reflexivity|].
  rewrite IH. destruct (op_code p =? x); [reflexivity|]. reflexivity.
Qed.

Lemma tracks_add t ps p : tracks t ps -> tracks (zset (op_code p) p t) (ps ++ [p]).
Proof.
  intros (N & H). split; [now apply znodup_zset|]. intros x.
  rewrite zget_zset, last_added_snoc, (Z.eqb_sym x). destruct (Z.eqb_spec (op_code p) x) as [E|E].
  - split; [apply same_attr_refl|assumption].
  - apply H.
Qed.

Lemma tracks_data o ps code d : tracks (o_props o) ps -> tracks (o_props (fst (set_property_data code d o))) ps.
Proof.
  intros (N & H). unfold set_property_data, get_property.
  destruct (zget code (o_props o)) as [p|] eqn:E; [|exact (conj N H)].
  cbn [fst o_props set_o_props]. split; [now apply znodup_zset|].
  intros x. rewrite zget_zset. destruct (Z.eqb_spec x code) as [->|Hn]; [|apply H].
  specialize (H code). rewrite E in H. destruct (last_added code ps); [|assumption].
  destruct H as (A & B). split; [|assumption]. exact A.
Qed.

Lemma tracks_codes_where t ps f x : attr_only f -> tracks t ps ->
  (In x (map op_code (filter f (dvals t))) <-> exists q, last_added x ps = Some q /\ f q = true).
Proof.
  intros Hf (N & H). rewrite in_map_iff. split.
  - intros (p & E & Hp). apply filter_In in Hp. destruct Hp as (Hp & Fp).
    unfold dvals in Hp. apply in_map_iff in Hp. destruct Hp as ([k p'] & Ep & Hin). cbn [snd] in Ep. subst p'.
    apply (in_zget _ _ _ N) in Hin. pose proof (H k) as Hk. rewrite Hin in Hk.
    destruct (last_added k ps) as [q|] eqn:L; [|contradiction]. destruct Hk as (A & B).
    exists q. split; [congruence|]. rewrite <- (Hf p q A). assumption.
  - intros (q & L & Fq). pose proof (H x) as Hx. rewrite L in Hx.
    destruct (zget x t) as [p|] eqn:G; [|contradiction]. destruct Hx as (A & B).
    exists p. split; [assumption|]. apply filter_In. split; [|rewrite (Hf p q A); assumption].
    apply zget_in in G. unfold dvals. apply in_map_iff. exists (x, p). auto.
Qed.

Lemma attr_only_anno : attr_only is_announce_required.
Proof. intros p q (_ & _ & _ & E). unfold is_announce_required. now rewrite E. Qed.
Lemma attr_only_get : attr_only is_read_enabled.
Proof. intros p q (_ & E & _ & _). unfold is_read_enabled. now rewrite E. Qed.
Lemma attr_only_set : attr_only is_write_enabled.
Proof. intros p q (_ & _ & E & _). unfold is_write_enabled. now rewrite E. Qed.

Section WithSet.
Context {PS : PySet}.

(** The three maps of the table. *)
Definition map_of (f : oprop -> bool) (o : obj) : list Z := set_list (codes_where f o).

Lemma codes_where_data f o c d : attr_only f -> codes_where f (fst (set_property_data c d o)) = codes_where f o.
Proof.
  intros Hf. unfold codes_where, set_property_data, get_property.
  destruct (zget c (o_props o)) as [p|] eqn:E; [|reflexivity]. cbn [fst o_props set_o_props].
  revert E. generalize (o_props o). intros t. induction t as [|[k q] t IH]; cbn [dget dset]; [discriminate|].
  destruct (Z.eqb c k) eqn:Ek; intros E.
  - injection E as ->. cbn [dvals map snd filter].
    rewrite (Hf (set_op_data d p) p) by (repeat split). destruct (f p); reflexivity.
  - specialize (IH E). cbn [dvals map snd filter] in *. destruct (f q); cbn [map]; [f_equal|]; exact IH.
Qed.

Lemma has_data code c d o : has_property code (fst (set_property_data c d o)) = has_property code o.
Proof.
  unfold has_property. rewrite set_property_data_get. destruct (Z.eqb_spec c code) as [->|]; [|reflexivity].
  destruct (get_property code o); reflexivity.
Qed.

Definition with_maps (o : obj) : obj :=
  fst (set_property_data SET_PROPERTY_MAP (map_data (map_of is_write_enabled o))
  (fst (set_property_data GET_PROPERTY_MAP (map_data (map_of is_read_enabled o))
  (fst (set_property_data ANNO_PROPERTY_MAP (map_data (map_of is_announce_required o)) o))))).

Definition has_maps (o : obj) : Prop :=
  has_property ANNO_PROPERTY_MAP o = true /\ has_property SET_PROPERTY_MAP o = true /\ has_property GET_PROPERTY_MAP o = true.

Definition code_range (o : obj) : Prop := forall x, has_property x o = true -> 0x80 <= x < 0x100.

Lemma nodup_bytes_length l : NoDup l -> (forall x, In x l -> 0x80 <= x < 0x100) -> (length l <= 128)%nat.
Proof.
  intros N H. rewrite <- (seq_length 128 0), <- (map_length (fun n => 0x80 + Z.of_nat n)).
  apply NoDup_incl_length; [assumption|]. intros x Hx. apply H in Hx. apply in_map_iff.
  exists (Z.to_nat (x - 0x80)). split; [lia|]. apply in_seq. lia.
Qed.

Lemma map_of_ok f o ps : attr_only f -> tracks (o_props o) ps -> code_range o ->
  bytes_ok (map_of f o) /\ (length (map_of f o) <= 128)%nat /\ NoDup (map_of f o) /\ (forall x, In x (map_of f o) -> 0x80 <= x < 0x100) /\
    (forall x, In x (map_of f o) <-> exists q, last_added x ps = Some q /\ f q = true).
Proof.
  intros Hf T R.
  assert (I : forall x, In x (map_of f o) <-> exists q, last_added x ps = Some q /\ f q = true).
  { intros x. unfold map_of. rewrite set_list_in. now apply tracks_codes_where. }
  assert (B : forall x, In x (map_of f o) -> 0x80 <= x < 0x100).
  { intros x Hx. apply R. apply I in Hx. destruct Hx as (q & L & _). destruct T as (_ & T).
    specialize (T x). rewrite L in T. unfold has_property, get_property.
    destruct (zget x (o_props o)); [reflexivity|contradiction]. }
  assert (N : NoDup (map_of f o)) by apply set_list_nodup.
  repeat split; auto.
  - apply Forall_forall. intros x Hx. apply B in Hx. unfold byte_ok. lia.
  - apply nodup_bytes_length; auto.
  - apply B. assumption.
  - apply B. assumption.
  - apply I.
  - apply I.
Qed.

Lemma update_maps_ok o ps : tracks (o_props o) ps -> code_range o -> has_maps o ->
  update_property_maps o = (with_maps o, Ok true).
Proof.
  intros T R (H1 & H2 & H3). unfold update_property_maps.
  fold (map_of is_announce_required o) (map_of is_read_enabled o) (map_of is_write_enabled o).
  destruct (map_of_ok _ o ps attr_only_anno T R) as (A1 & A2 & _).
  destruct (map_of_ok _ o ps attr_only_get T R) as (B1 & B2 & _).
  destruct (map_of_ok _ o ps attr_only_set T R) as (C1 & C2 & _).
  rewrite set_map_ok by (try assumption; lia).
  rewrite set_map_ok; [|now rewrite has_data|assumption|lia].
  rewrite set_map_ok; [|now rewrite !has_data|assumption|lia].
  reflexivity.
Qed.

Lemma set_map_cases code l o : bytes_ok l -> (length l <= 255)%nat ->
  set_property_map code l o = (o, Ok false) \/
  set_property_map code l o = (fst (set_property_data code (map_data l) o), Ok true).
Proof.
  intros Hb Hl. destruct (has_property code o) eqn:E; [right; now apply set_map_ok|left].
  unfold set_property_map. now rewrite E.
Qed.

(** Whatever maps are missing, updating raises nothing and changes only data. *)
Lemma update_maps_total o ps : tracks (o_props o) ps -> code_range o ->
  exists o' b, update_property_maps o = (o', Ok b) /\ tracks (o_props o') ps /\   (forall x, has_property x o' = has_property x o).
Proof.
  intros T R. unfold update_property_maps.
  fold (map_of is_announce_required o) (map_of is_read_enabled o) (map_of is_write_enabled o).
  destruct (map_of_ok _ o ps attr_only_anno T R) as (A1 & A2 & _).
  destruct (map_of_ok _ o ps attr_only_get T R) as (B1 & B2 & _).
  destruct (map_of_ok _ o ps attr_only_set T R) as (C1 & C2 & _).
  destruct (set_map_cases ANNO_PROPERTY_MAP (map_of is_announce_required o) o A1) as [-> | ->]; [lia| |].
  { exists o, false. auto. }
  match goal with |- context [set_property_map GET_PROPERTY_MAP ?m ?o1] => set (X := o1);
    destruct (set_map_cases GET_PROPERTY_MAP m X B1) as [-> | ->]; [lia| |] end.
  { exists X, false. split; [reflexivity|]. split; [now apply tracks_data|intros; apply has_data]. }
  match goal with |- context [set_property_map SET_PROPERTY_MAP ?m ?o1] => set (Y := o1);
    destruct (set_map_cases SET_PROPERTY_MAP m Y C1) as [-> | ->]; [lia| |] end.
  { exists Y, false. split; [reflexivity|]. unfold Y, X. split; [now repeat apply tracks_data|intros; now rewrite !has_data]. }
  eexists _, true. split; [reflexivity|]. unfold Y, X.
  split; [now repeat apply tracks_data|intros; now rewrite !has_data].
Qed.

Lemma with_maps_get o x :
  get_property x (with_maps o) =
  match get_property x o with
  | None => None
  | Some p => Some (if x =? SET_PROPERTY_MAP then set_op_data (map_data (map_of is_write_enabled o)) p
                    else if x =? GET_PROPERTY_MAP then set_op_data (map_data (map_of is_read_enabled o)) p
                    else if x =? ANNO_PROPERTY_MAP then set_op_data (map_data (map_of is_announce_required o)) p
                    else p)
  end.
Proof.
  unfold with_maps. rewrite !set_property_data_get, !(Z.eqb_sym _ x).
  destruct (Z.eqb_spec x SET_PROPERTY_MAP) as [->|];
    [|destruct (Z.eqb_spec x GET_PROPERTY_MAP) as [->|];
      [|destruct (Z.eqb_spec x ANNO_PROPERTY_MAP) as [->|]]].
  - change (SET_PROPERTY_MAP =? GET_PROPERTY_MAP) with false.
    change (SET_PROPERTY_MAP =? ANNO_PROPERTY_MAP) with false. reflexivity.
  - change (GET_PROPERTY_MAP =? ANNO_PROPERTY_MAP) with false. reflexivity.
  - reflexivity.
  - destruct (get_property x o); reflexivity.
Qed.

Lemma add_all_snoc ps p o : add_all (ps ++ [p]) o =
  match add_all ps o with
  | (o', Ok _) => match add_property_super (Some p) o' with
                  | (o2, Err e) => (o2, Err e)
                  | (o2, Ok _) => (o2, Ok true)
                  end
  | r => r
  end.
Proof.
  revert o; induction ps as [|q ps IH]; intros o; cbn [app add_all].
  - destruct (add_property_super (Some p) o) as [o' [b|e]]; reflexivity.
  - destruct (add_property_super (Some q) o) as [o' [b|e]]; [apply IH|reflexivity].
Qed.

(** A state reached by adding [ps]: the table tracks [ps]. *)
Lemma add_all_ok ps : forall o0 base, tracks (o_props o0) base -> code_range o0 ->
  (forall p, In p ps -> 0x80 <= op_code p < 0x100) ->
  exists o, add_all ps o0 = (o, Ok true) /\ tracks (o_props o) (base ++ ps) /\ code_range o.
Proof.
  induction ps as [|p ps IH] using rev_ind; intros o0 base T R H.
  - exists o0. rewrite app_nil_r. auto.
  - destruct (IH o0 base T R) as (o & E & T1 & R1); [intros q Hq; apply H, in_app_iff; now left|].
    rewrite add_all_snoc, E. unfold add_property_super, add_property_base.
    set (o1 := set_o_props (zset (op_code p) p (o_props o)) o).
    assert (T2 : tracks (o_props o1) ((base ++ ps) ++ [p])) by (now apply tracks_add).
    assert (R2 : code_range o1).
    { intros x Hx. unfold has_property, get_property, o1 in Hx. cbn [o_props set_o_props] in Hx.
      rewrite zget_zset in Hx. destruct (Z.eqb_spec x (op_code p)) as [Ex|].
      - rewrite Ex. apply H, in_app_iff. right. now left.
      - apply R1. exact Hx. }
    destruct (update_maps_total o1 _ T2 R2) as (o2 & b & E2 & T3 & K). rewrite E2.
    exists o2. split; [reflexivity|]. rewrite app_assoc. split; [assumption|].
    intros x Hx. apply R2. now rewrite <- K.
Qed.

Lemma tracks_new a : tracks (o_props (new_super_object a)) [].
Proof. split; [constructor|]. intros x. reflexivity. Qed.

Lemma has_maps_ps o ps : tracks (o_props o) ps ->
  (forall x, has_property x o = true <-> exists p, In p ps /\ op_code p = x).
Proof.
  intros (_ & T) x. specialize (T x). unfold has_property, get_property.
  assert (L : isSome (last_added x ps) = true <-> exists p, In p ps /\ op_code p = x).
  { clear T. induction ps as [|p ps IH]; cbn [last_added isSome In].
    - split; [discriminate|]. intros (p & [] & _).
    - destruct (last_added x ps) as [q|]; cbn [isSome] in *.
      + split; [|reflexivity]. intros _. destruct IH as [IH _]. destruct (IH eq_refl) as (r & Hr & E). eauto.
      + destruct (Z.eqb_spec (op_code p) x) as [E|E]; cbn [isSome].
        * split; [|reflexivity]. eauto.
        * split; [discriminate|]. intros (r & [->|Hr] & E2); [contradiction|].
          destruct IH as [_ IH]. discriminate IH. eauto. }
  rewrite <- L. destruct (zget x (o_props o)), (last_added x ps); cbn [isSome]; tauto.
Qed.

(** After the last add the maps are those of the table. *)
Lemma maps_after_add a ps : ps <> [] -> (forall p, In p ps -> 0x80 <= op_code p < 0x100) ->
  (forall c, In c [0x9D; 0x9E; 0x9F] -> exists p, In p ps /\ op_code p = c) ->
  exists o1 o, add_all ps (new_super_object a) = (o, Ok true) /\ o = with_maps o1 /\   tracks (o_props o1) ps /\ code_range o1 /\ has_maps o1.
Proof.
  intros Hne H HM. destruct (exists_last Hne) as (l & p & ->).
  destruct (add_all_ok l (new_super_object a) [] (tracks_new a)) as (o & E & T & R).
  { intros x Hx. discriminate. }
  { intros q Hq. apply H, in_app_iff. now left. }
  cbn [app] in T.
  rewrite add_all_snoc, E. unfold add_property_super, add_property_base.
  set (o1 := set_o_props (zset (op_code p) p (o_props o)) o).
  assert (T2 : tracks (o_props o1) (l ++ [p])) by (now apply tracks_add).
  assert (R2 : code_range o1).
  { intros x Hx. apply (has_maps_ps o1 _ T2) in Hx. destruct Hx as (q & Hq & <-). auto. }
  assert (M : has_maps o1).
  { repeat split; apply (has_maps_ps o1 _ T2); apply HM; cbn; auto. }
  rewrite (update_maps_ok o1 _ T2 R2 M). exists o1, (with_maps o1).
  split; [reflexivity|]. split; [reflexivity|]. auto.
Qed.
End WithSet.

Lemma kind_attr mc f : In (mc, f) map_kinds -> attr_only f.
Proof.
  intros [E|[E|[E|[]]]]; injection E as _ <-;
    [apply attr_only_anno|apply attr_only_set|apply attr_only_get].
Qed.

Lemma with_maps_data {PS : PySet} o mc f : In (mc, f) map_kinds -> has_maps o ->
  get_property_data mc (with_maps o) = Some (map_data (map_of f o)).
Proof.
  intros H (H1 & H2 & H3). unfold get_property_data. change (zget mc (o_props (with_maps o))) with (get_property mc (with_maps o)).
  rewrite with_maps_get.
  destruct H as [E|[E|[E|[]]]]; injection E as <- <-; unfold has_property in *.
  - change 0x9D with ANNO_PROPERTY_MAP. destruct (get_property ANNO_PROPERTY_MAP o); [reflexivity|discriminate].
  - change 0x9E with SET_PROPERTY_MAP. destruct (get_property SET_PROPERTY_MAP o); [reflexivity|discriminate].
  - change 0x9F with GET_PROPERTY_MAP. destruct (get_property GET_PROPERTY_MAP o); [reflexivity|discriminate].
Qed.

Lemma describes_length l l' f ps : describes l f ps -> describes l' f ps -> length l = length l'.
Proof.
  intros (N & I) (N' & I'). apply Nat.le_antisymm; apply NoDup_incl_length; auto; intros x Hx.
  - now apply I', I.
  - now apply I, I'.
Qed.

Lemma describes_same l m f ps : describes m f ps -> (describes l f ps <-> same_codes l m).
Proof.
  intros (N & I). split; intros (N' & I'); split; auto; intros x; rewrite I', I; tauto.
Qed.

Lemma maps_final (PS : PySet) a ps : adds_ok ps ->
  exists o, add_all ps (new_super_object a) = (o, Ok true) /\
    forall mc f, In (mc, f) map_kinds -> exists m, describes m f ps /\
      get_property_data mc o = Some (map_data m) /\ (forall c, In c m -> 0x80 <= c < 0x100).
Proof.
  intros (H & HM).
  assert (Hne : ps <> []).
  { intros ->. destruct (HM 0x9D) as (p & [] & _). now left. }
  destruct (maps_after_add a ps Hne H HM) as (o1 & o & E & -> & T & R & M).
  exists (with_maps o1). split; [assumption|]. intros mc f Hk.
  destruct (map_of_ok f o1 ps (kind_attr _ _ Hk) T R) as (_ & _ & N & B & I).
  exists (map_of f o1). split; [split; assumption|]. split; [|assumption].
  now apply with_maps_data.
Qed.

Lemma L_C15_maps_partial : forall (PS : PySet) a ps, adds_ok ps ->
  exists o, add_all ps (new_super_object a) = (o, Ok true) /\
    forall mc f, In (mc, f) map_kinds -> exists d, get_property_data mc o = Some d /\
      ((forall l, describes l f ps -> (length l <= 15)%nat) ->
       exists l, property_map_codes d = MapCodes l /\ describes l f ps).
Proof.
  intros PS a ps H. destruct (maps_final PS a ps H) as (o & E & K). exists o. split; [assumption|].
  intros mc f Hk. destruct (K mc f Hk) as (m & D & G & _). exists (map_data m). split; [assumption|].
  intros L. exists m. split; [|assumption]. specialize (L m D). unfold map_data, is_format1, PROPERTYMAP_FORMAT1_MAX_SIZE.
  replace (zlen m <=? 15) with true by (unfold zlen; lia). now apply decode1.
Qed.

Lemma map_data2 m : (16 <= length m)%nat -> map_data m = map2_data m.
Proof.
  intros H. unfold map_data, is_format1, PROPERTYMAP_FORMAT1_MAX_SIZE.
  replace (zlen m <=? 15) with false by (unfold zlen; lia). reflexivity.
Qed.

Lemma L_C16_large_maps_partial : forall (PS : PySet) a ps, adds_ok ps ->
  exists o, add_all ps (new_super_object a) = (o, Ok true) /\
    forall mc f m, In (mc, f) map_kinds -> describes m f ps -> (16 <= length m)%nat ->
      exists d l, get_property_data mc o = Some d /\ property_map_codes d = MapCodes l /\
        (describes l f ps <-> length m = 16%nat /\ forall c, In c m -> c < 0xC0).
Proof.
  intros PS a ps H. destruct (maps_final PS a ps H) as (o & E & K). exists o. split; [assumption|].
  intros mc f m Hk Dm Lm. destruct (K mc f Hk) as (m' & D & G & R).
  pose proof (describes_length _ _ _ _ Dm D) as L.
  rewrite map_data2 in G by lia. pose proof (map2_roundtrip m' R) as RT.
  eexists _, _. split; [exact G|]. split; [exact RT|].
  rewrite (describes_same _ _ _ _ D).
  destruct D as (N & I). rewrite (map2_exact m' R N ltac:(lia) _ RT). rewrite L.
  destruct Dm as (_ & Im). split; intros (A & B); (split; [assumption|]); intros c Hc; apply B; [now apply I, Im|now apply Im, I].
Qed.

(** An object with 19 readable properties. *)
Definition wit_props : list oprop :=
  map (fun c => mkoprop c [] OPTIONAL PROHIBITED PROHIBITED)
    [0x80;0x81;0x82;0x83;0x84;0x85;0x86;0x87;0x88;0x89;0x8A;0x8B;0x8C;0x8D;0x8E;0x8F;0x9D;0x9E;0x9F]%Z.

Lemma wit_props_ok : adds_ok wit_props.
Proof.
  split.
  - intros p Hp. unfold wit_props in Hp. apply in_map_iff in Hp. destruct Hp as (c & <- & Hc).
    cbn [op_code]. cbn in Hc. lia.
  - intros c Hc. exists (mkoprop c [] OPTIONAL PROHIBITED PROHIBITED). split; [|reflexivity].
    unfold wit_props. apply in_map_iff. exists c. split; [reflexivity|]. cbn in *. tauto.
Qed.

Definition wit_read : list Z := map op_code wit_props.
Lemma wit_describes : describes wit_read is_read_enabled wit_props.
Proof.
  split.
  - unfold wit_read, wit_props. cbn [map op_code].
    repeat (apply NoDup_cons; [cbn; lia|]). apply NoDup_nil.
  - intros x. split.
    + intros H. cbn in H.
      repeat (destruct H as [<-|H]; [eexists; split; reflexivity|]). destruct H.
    + intros (q & L & _).
      assert (G : forall ps, last_added x ps = Some q -> In x (map op_code ps)).
      { induction ps as [|p ps IH]; cbn [last_added map In]; [discriminate|].
        destruct (last_added x ps); [auto|]. destruct (Z.eqb_spec (op_code p) x); [auto|discriminate]. }
      now apply G.
Qed.

Lemma L_C15_maps_refuted : forall (PS : PySet) a, exists ps o d l,
  adds_ok ps /\ add_all ps (new_super_object a) = (o, Ok true) /\
  get_property_data 0x9F o = Some d /\ property_map_codes d = MapCodes l /\
  ~ describes l is_read_enabled ps.
Proof.
  intros PS a. destruct (L_C16_large_maps_partial PS a wit_props wit_props_ok) as (o & E & K).
  destruct (K 0x9F is_read_enabled wit_read) as (d & l & G & D & I).
  { right; right; left. reflexivity. } { exact wit_describes. } { cbn; lia. }
  exists wit_props, o, d, l. split; [exact wit_props_ok|]. split; [assumption|].
  split; [assumption|]. split; [assumption|]. rewrite I. cbn. lia.
Qed.

Lemma L_C16_large_maps_refuted : forall (PS : PySet) a, exists ps o m d l,
  adds_ok ps /\ add_all ps (new_super_object a) = (o, Ok true) /\
  describes m is_read_enabled ps /\ (16 <= length m)%nat /\
  get_property_data 0x9F o = Some d /\ property_map_codes d = MapCodes l /\ ~ same_codes l m.
Proof.
  intros PS a. destruct (L_C16_large_maps_partial PS a wit_props wit_props_ok) as (o & E & K).
  destruct (K 0x9F is_read_enabled wit_read) as (d & l & G & D & I).
  { right; right; left. reflexivity. } { exact wit_describes. } { cbn; lia. }
  exists wit_props, o, wit_read, d, l.
  split; [exact wit_props_ok|]. split; [assumption|]. split; [exact wit_describes|].
  split; [cbn; lia|]. split; [assumption|]. split; [assumption|].
  rewrite <- (describes_same _ _ _ _ wit_describes), I. cbn. lia.
Qed.

(** One possible enumeration of sets. *)
Definition pyset_nodup : PySet.
Proof.
  refine {| set_list := nodup Z.eq_dec |}; intros.
  - apply NoDup_nodup.
  - apply nodup_In.
Defined.
