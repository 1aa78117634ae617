(** Lemmas about byte conversions. *)
From Verif Require Import PyBase BytesM MsgM SpecWire.
Require Import ZifyBool ZifyNat ZifyN.

Lemma byte_okb_spec x : byte_okb x = true <-> byte_ok x.
Proof. unfold byte_okb, byte_ok. lia. Qed.

Lemma byte_okb_false x : byte_okb x = false <-> ~ byte_ok x.
Proof. unfold byte_okb, byte_ok. lia. Qed.

Lemma upd_app_last {A} (l r : list A) (x v : A) :
  upd (l ++ x :: r) (length l) v = l ++ v :: r.
Proof. induction l as [|y l IH]; simpl; [reflexivity|now rewrite IH]. Qed.

Lemma upd_length {A} (l : list A) i v : length (upd l i v) = length l.
Proof. revert i; induction l as [|x l IH]; intros [|i]; simpl; auto. Qed.

Lemma fold_upd_rev (f : nat -> Z) (n j : nat) : (j <= n)%nat ->
  fold_left (fun buf k => upd buf (n - 1 - k) (f k)) (seq 0 j) (repeat 0 n)
  = repeat 0 (n - j) ++ rev (map f (seq 0 j)).
Proof.
  induction j as [|j IH]; intros Hj.
  - simpl. rewrite Nat.sub_0_r, app_nil_r. reflexivity.
  - rewrite seq_S, fold_left_app, IH by lia. cbn [fold_left Nat.add].
    rewrite map_app, rev_app_distr. cbn [map rev app].
    replace (n - j)%nat with (S (n - S j))%nat by lia.
    replace (repeat 0 (S (n - S j))) with (repeat 0 (n - S j) ++ [0]).
    2:{ rewrite <- (repeat_cons (n - S j) 0). reflexivity. }
    rewrite <- app_assoc. cbn [app].
    replace (n - 1 - j)%nat with (length (repeat 0 (n - S j))) by (rewrite repeat_length; lia).
    apply upd_app_last.
Qed.

Lemma land_shift_digit v k :
  Z.land (Z.shiftr v (Z.of_nat k * 8)) 255 = (v / 256 ^ Z.of_nat k) mod 256.
Proof.
  change 255 with (Z.ones 8). rewrite Z.land_ones by lia.
  rewrite Z.shiftr_div_pow2 by lia.
  change (2 ^ 8) with 256. f_equal. f_equal.
  rewrite Z.mul_comm, Z.pow_mul_r by lia. reflexivity.
Qed.

Lemma be_rev n v :
  be n v = rev (map (fun k => (v / 256 ^ Z.of_nat k) mod 256) (seq 0 n)).
Proof.
  induction n as [|n IH]; [reflexivity|].
  rewrite seq_S, map_app, rev_app_distr. cbn [be map rev app Nat.add]. now rewrite IH.
Qed.

Lemma from_int_n_be v n : from_int_n v n = be n v.
Proof.
  unfold from_int_n. rewrite fold_upd_rev by lia.
  rewrite Nat.sub_diag. cbn [repeat app]. rewrite be_rev. f_equal. apply map_ext.
  intros k. apply land_shift_digit.
Qed.

Lemma be_length n v : length (be n v) = n.
Proof. induction n; simpl; auto. Qed.

Lemma be_ok n v : bytes_ok (be n v).
Proof.
  induction n as [|n IH]; cbn [be]; constructor; auto.
  unfold byte_ok. pose proof (Z.mod_pos_bound (v / 256 ^ Z.of_nat n) 256). lia.
Qed.

Lemma skipn_nth_cons (l : list Z) i : (i < length l)%nat ->
  skipn i l = nth i l 0 :: skipn (S i) l.
Proof.
  revert i; induction l as [|x l IH]; intros i Hi; simpl in Hi; [lia|].
  destruct i as [|i]; [reflexivity|]. cbn [skipn nth]. apply IH. lia.
Qed.

Lemma to_int_be_val b : to_int b = be_val b.
Proof.
  unfold to_int.
  assert (H : forall j, (j <= length b)%nat ->
    fold_left (fun val n => val + Z.shiftl (nth (length b - 1 - n) b 0) (Z.of_nat n * 8))
      (seq 0 j) 0 = be_val (skipn (length b - j) b)).
  { induction j as [|j IH]; intros Hj.
    - rewrite Nat.sub_0_r, skipn_all. reflexivity.
    - rewrite seq_S, fold_left_app, IH by lia. cbn [fold_left Nat.add].
      rewrite (skipn_nth_cons b (length b - S j)) by lia.
      cbn [be_val].
      replace (S (length b - S j)) with (length b - j)%nat by lia.
      replace (length b - 1 - j)%nat with (length b - S j)%nat by lia.
      rewrite skipn_length. replace (length b - (length b - j))%nat with j by lia.
      rewrite Z.shiftl_mul_pow2 by lia.
      rewrite (Z.mul_comm (Z.of_nat j) 8), Z.pow_mul_r by lia.
      change (2 ^ 8) with 256. lia. }
  rewrite H by lia. rewrite Nat.sub_diag. reflexivity.
Qed.

Lemma pow256_pos n : 0 < 256 ^ Z.of_nat n.
Proof. apply Z.pow_pos_nonneg; lia. Qed.

Lemma be_val_be n v : be_val (be n v) = v mod 256 ^ Z.of_nat n.
Proof.
  induction n as [|n IH]; cbn [be be_val].
  - change (256 ^ Z.of_nat 0) with 1. now rewrite Z.mod_1_r.
  - rewrite be_length, IH. pose proof (pow256_pos n).
    rewrite Nat2Z.inj_succ, Z.pow_succ_r by lia.
    rewrite (Z.mul_comm 256). rewrite Z.rem_mul_r by lia. lia.
Qed.

Lemma be_val_bound b : bytes_ok b -> 0 <= be_val b < 256 ^ Z.of_nat (length b).
Proof.
  induction b as [|x b IH]; intros H; cbn [be_val length].
  - simpl. lia.
  - inversion H as [|? ? Hx Hb]; subst. specialize (IH Hb). unfold byte_ok in Hx.
    rewrite Nat2Z.inj_succ, Z.pow_succ_r by lia. nia.
Qed.

Lemma be_be_val_mod b k : bytes_ok b ->
  be (length b) (k * 256 ^ Z.of_nat (length b) + be_val b) = b.
Proof.
  revert k; induction b as [|x b IH]; intros k H; [reflexivity|].
  inversion H as [|? ? Hx Hb]; subst. pose proof (be_val_bound b Hb) as Hv.
  pose proof (pow256_pos (length b)) as Hp. unfold byte_ok in Hx.
  cbn [length be be_val]. rewrite Nat2Z.inj_succ, Z.pow_succ_r by lia.
  set (P := 256 ^ Z.of_nat (length b)) in *.
  replace (k * (256 * P) + (x * P + be_val b)) with ((k * 256 + x) * P + be_val b) by ring.
  f_equal.
  - rewrite Z.div_add_l by lia. rewrite Z.div_small by lia.
    rewrite Z.add_0_r, Z.add_comm, Z.mod_add by lia. apply Z.mod_small. lia.
  - apply IH. exact Hb.
Qed.

Lemma be_be_val b : bytes_ok b -> be (length b) (be_val b) = b.
Proof. intros H. pose proof (be_be_val_mod b 0 H) as E. simpl in E. exact E. Qed.

Lemma be_mod n v : be n (v mod 256 ^ Z.of_nat n) = be n v.
Proof.
  rewrite <- be_val_be. rewrite <- (be_length n v) at 1. apply be_be_val, be_ok.
Qed.

(** Hexadecimal text *)

Lemma byte_forall (P : Z -> bool) :
  forallb P (map Z.of_nat (seq 0 256)) = true -> forall x, byte_ok x -> P x = true.
Proof.
  intros H x Hx. rewrite forallb_forall in H. apply H. unfold byte_ok in Hx.
  apply in_map_iff. exists (Z.to_nat x). split; [lia|]. apply in_seq. lia.
Qed.

Definition hex_digit_ok (d : Z) : bool :=
  match hex_val (hex_digit d) with
  | Some v => (v =? d) && negb (is_space (hex_digit d))
  | None => false
  end.

Lemma hex_digit_inv d : 0 <= d < 16 ->
  hex_val (hex_digit d) = Some d /\ is_space (hex_digit d) = false.
Proof.
  intros Hd.
  assert (E : forallb hex_digit_ok (map Z.of_nat (seq 0 16)) = true) by reflexivity.
  rewrite forallb_forall in E. specialize (E d).
  assert (In d (map Z.of_nat (seq 0 16))) as Hin.
  { apply in_map_iff. exists (Z.to_nat d). split; [lia|]. apply in_seq. lia. }
  specialize (E Hin). unfold hex_digit_ok in E.
  destruct (hex_val (hex_digit d)) as [v|]; [|discriminate].
  apply andb_true_iff in E. destruct E as [E1 E2].
  apply Z.eqb_eq in E1. apply negb_true_iff in E2. subst. auto.
Qed.

Lemma from_string_to_hex b : bytes_ok b -> from_string (to_hex_upper b) = Ok b.
Proof.
  induction b as [|x b IH]; intros H; [reflexivity|].
  inversion H as [|? ? Hx Hb]; subst. unfold byte_ok in Hx.
  cbn [to_hex_upper from_string].
  destruct (hex_digit_inv (x / 16)) as [E1 E2].
  { split; [apply Z.div_pos; lia|]. apply Z.div_lt_upper_bound; lia. }
  destruct (hex_digit_inv (x mod 16)) as [E3 _]; [apply Z.mod_pos_bound; lia|].
  rewrite E2, E1, E3, (IH Hb). cbn [bindr]. rewrite <- (Z.div_mod x 16) by lia. reflexivity.
Qed.

Lemma hex_val_bound c v : hex_val c = Some v -> 0 <= v < 16.
Proof.
  unfold hex_val. generalize (Z.of_N (N_of_ascii c)). intros n.
  destruct (48 <=? n) eqn:A1, (n <=? 57) eqn:A2, (65 <=? n) eqn:A3, (n <=? 70) eqn:A4,
    (97 <=? n) eqn:A5, (n <=? 102) eqn:A6; cbn [andb]; intros E; inversion E; lia.
Qed.

Lemma from_string_ok_bytes : forall s b, from_string s = Ok b -> bytes_ok b.
Proof.
  fix IH 1. intros [|c s] b; cbn [from_string].
  - intros [= <-]. constructor.
  - destruct (is_space c); [apply IH|]. destruct s as [|d s]; [discriminate|].
    destruct (hex_val c) as [h|] eqn:Eh; [|discriminate].
    destruct (hex_val d) as [l|] eqn:El; [|discriminate].
    specialize (IH s). destruct (from_string s) as [r|e]; cbn [bindr]; [|discriminate].
    intros E. assert (Eb : b = 16 * h + l :: r) by congruence. subst b.
    apply hex_val_bound in Eh, El. constructor; [unfold byte_ok; lia|].
    apply IH. reflexivity.
Qed.

Lemma from_string_exn : forall s e, from_string s = Err e -> e = ValueError.
Proof.
  fix IH 1. intros [|c s] e; cbn [from_string]; [discriminate|].
  destruct (is_space c); [apply IH|]. destruct s as [|d s]; [congruence|].
  destruct (hex_val c); [|congruence]. destruct (hex_val d); [|congruence].
  specialize (IH s). destruct (from_string s); cbn [bindr]; [discriminate|].
  intros E. injection E as <-. apply IH. reflexivity.
Qed.
