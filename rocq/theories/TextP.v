(** Lemmas for C71. *)
From Verif Require Import PyBase BytesM MsgM PropM ObjM DictP SpecObj ObjP TextM SpecText.

Ltac zdiv := Z.to_euclidean_division_equations; lia.
Lemma low6 x : Z.land x 0x3F = x mod 64.
Proof. change 0x3F with (Z.ones 6). now rewrite Z.land_ones by lia. Qed.
Lemma lor80 x : Z.lor 0x80 (Z.land x 0x3F) = 0x80 + x mod 64.
Proof. rewrite low6. change 0x80 with (2 * 2 ^ 6). apply lor_disjoint; [lia|]. apply Z.mod_pos_bound. lia. Qed.

Lemma three c : 0x800 <= c < 0x10000 -> ~ surrogate c ->
  utf8_of c [Z.lor 0xE0 (Z.shiftr c 12); 0x80 + Z.shiftr c 6 mod 64; 0x80 + c mod 64].
Proof.
  unfold surrogate. intros C S. rewrite !Z.shiftr_div_pow2 by lia. change 0xE0 with (14 * 2 ^ 4). rewrite lor_disjoint by zdiv.
  replace c with ((14 * 2 ^ 4 + c / 2 ^ 12 - 0xE0) * 2 ^ 12 + (0x80 + c / 2 ^ 6 mod 64 - 0x80) * 2 ^ 6 + (0x80 + c mod 64 - 0x80)) at 1 by zdiv.
  apply utf8_3; unfold tail_byte; zdiv.
Qed.
Lemma four c : 0x10000 <= c <= 0x10FFFF ->
  utf8_of c [Z.lor 0xF0 (Z.shiftr c 18); 0x80 + Z.shiftr c 12 mod 64; 0x80 + Z.shiftr c 6 mod 64; 0x80 + c mod 64].
Proof.
  intros C. rewrite !Z.shiftr_div_pow2 by lia. change 0xF0 with (30 * 2 ^ 3). rewrite lor_disjoint by zdiv.
  replace c with ((30 * 2 ^ 3 + c / 2 ^ 18 - 0xF0) * 2 ^ 18 + (0x80 + c / 2 ^ 12 mod 64 - 0x80) * 2 ^ 12 + (0x80 + c / 2 ^ 6 mod 64 - 0x80) * 2 ^ 6 + (0x80 + c mod 64 - 0x80)) at 1 by zdiv.
  apply utf8_4; unfold tail_byte; zdiv.
Qed.
Lemma utf8_char_spec c : code_point c ->
  match utf8_char c with Ok b => ~ surrogate c /\ utf8_of c b | Err e => surrogate c /\ e = ValueError end.
Proof.
  unfold code_point. intros C. unfold utf8_char. rewrite !lor80.
  destruct (Z.ltb_spec c 0x80); [split; [unfold surrogate; lia|apply utf8_1; lia]|].
  destruct (Z.ltb_spec c 0x800).
  { split; [unfold surrogate; lia|]. rewrite Z.shiftr_div_pow2 by lia. change 0xC0 with (6 * 2 ^ 5) at 1. rewrite lor_disjoint by zdiv.
    replace c with ((6 * 2 ^ 5 + c / 2 ^ 6 - 0xC0) * 2 ^ 6 + (0x80 + c mod 64 - 0x80)) at 1 by zdiv.
    apply utf8_2; unfold tail_byte; zdiv. }
  destruct ((0xD800 <=? c) && (c <=? 0xDFFF)) eqn:S; [unfold surrogate; split; [lia|reflexivity]|]. assert (N : ~ surrogate c) by (unfold surrogate; lia).
  destruct (Z.ltb_spec c 0x10000); (split; [exact N|]); [apply three; [lia|exact N]|apply four; lia].
Qed.

Lemma utf8_encode_spec s : Forall code_point s ->
  match utf8_encode s with Ok b => Forall (fun c => ~ surrogate c) s /\ utf8_text s b | Err e => Exists surrogate s /\ e = ValueError end.
Proof.
  induction 1 as [|c s C _ IH]; cbn [utf8_encode]; [split; constructor|].
  pose proof (utf8_char_spec c C) as H. destruct (utf8_char c) as [b|e]; [|destruct H; split; [now left|reflexivity]]. destruct H as (N & U).
  destruct (utf8_encode s) as [l|e]; [|destruct IH; split; [now right|reflexivity]]. destruct IH as (NN & T). split; constructor; assumption.
Qed.

(** The first octet tells the length; equal octets are equal code points. *)
Lemma utf8_of_prefix c b c' b' x y : utf8_of c b -> utf8_of c' b' -> b ++ x = b' ++ y -> c = c' /\ b = b' /\ x = y.
Proof.
  intros U V E. destruct U, V; cbn [app] in E; unfold tail_byte in *; injection E; intros; subst; try lia; auto.
Qed.
Lemma utf8_text_inj s b : utf8_text s b -> forall s', utf8_text s' b -> s = s'.
Proof.
  induction 1 as [|c s b l U T IH]; intros s' H.
  - inversion H as [|c' s0 b' l' U' T' E1 E2]; [reflexivity|]. destruct U'; discriminate.
  - inversion H as [E1 E2|c' s0 b' l' U' T' E1 E2]; [destruct U; discriminate|]. subst.
    destruct (utf8_of_prefix _ _ _ _ _ _ U' U E2) as (-> & -> & ->). f_equal. exact (IH _ T').
Qed.

Lemma L_C71_string : forall code s o, Forall code_point s ->
  (* a string with a surrogate raises and changes nothing *)
  (Exists surrogate s -> set_property_string code s o = (o, Err ValueError)) /\
  (Forall (fun c => ~ surrogate c) s -> exists b, utf8_text s b /\ bytes_ok b /\
     match get_property code o with
     | None => set_property_string code s o = (o, Ok false)
     | Some p => exists o', set_property_string code s o = (o', Ok true) /\
         get_property_data code o' = Some b /\ option_map (set_op_data (op_data p)) (get_property code o') = Some p /\
         (forall k, k <> code -> get_property k o' = get_property k o)
     end).
Proof.
  intros code s o C. pose proof (utf8_encode_spec s C) as H. unfold set_property_string. destruct (utf8_encode s) as [b|e].
  - destruct H as (N & T). split.
    { intros X. exfalso. rewrite Exists_exists in X. destruct X as (c & I & S). rewrite Forall_forall in N. exact (N c I S). }
    intros _. exists b. split; [exact T|]. split.
    { clear -T. induction T as [|c s b l U T IH]; [constructor|]. apply Forall_app. split; [|exact IH].
      destruct U; unfold tail_byte in *; repeat constructor; unfold byte_ok; lia. }
    destruct (get_property code o) as [p|] eqn:G; unfold set_property_data; rewrite G; [|reflexivity]. eexists. split; [reflexivity|].
    pose proof (set_property_data_get code b o) as K. unfold set_property_data in K. rewrite G in K. cbn [fst] in K.
    split; [|split].
    + specialize (K code). rewrite Z.eqb_refl, G in K. unfold get_property in K. unfold get_property_data. rewrite K. reflexivity.
    + rewrite K, Z.eqb_refl, G. cbn [option_map]. f_equal. destruct p; reflexivity.
    + intros k Nk. rewrite K. replace (code =? k) with false by lia. reflexivity.
  - destruct H as (X & ->). split; [reflexivity|]. intros N. exfalso. rewrite Exists_exists in X. destruct X as (c & I & S). rewrite Forall_forall in N. exact (N c I S).
Qed.
Lemma L_C71_unambiguous : forall s s' b, utf8_text s b -> utf8_text s' b -> s = s'.
Proof. intros s s' b H H'. exact (utf8_text_inj s b H s' H'). Qed.
