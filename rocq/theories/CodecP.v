(** Final form of the codec lemmas (properties C01-C10, C64). *)
From Verif Require Import PyBase BytesM EsvM MsgM SpecWire SpecHex BytesP WireP.
Require Import ZifyBool ZifyNat ZifyN.

(** ** C01 *)
Lemma L_C01_from_int : forall v n,
  (n < 0 -> from_int v n = Err ValueError) /\
  (0 <= n -> exists b, from_int v n = Ok b /\ zlen b = n /\ bytes_ok b /\
               be_val b = v mod 256 ^ n /\ to_int b = v mod 256 ^ n).
Proof.
  intros v n. unfold from_int. split; intros H.
  - assert (E : (n <? 0) = true) by lia. now rewrite E.
  - assert (E : (n <? 0) = false) by lia. rewrite E. eexists. split; [reflexivity|].
    rewrite from_int_n_be. repeat split.
    + unfold zlen. rewrite be_length. lia.
    + apply be_ok.
    + rewrite be_val_be. rewrite Z2Nat.id by lia. reflexivity.
    + rewrite to_int_be_val, be_val_be. rewrite Z2Nat.id by lia. reflexivity.
Qed.

Lemma L_C01_to_int : forall b, bytes_ok b ->
  to_int b = be_val b /\ 0 <= to_int b < 256 ^ zlen b /\ from_int (to_int b) (zlen b) = Ok b.
Proof.
  intros b H. rewrite to_int_be_val. split; [reflexivity|]. split; [now apply be_val_bound|].
  unfold from_int, zlen. assert (E : (Z.of_nat (length b) <? 0) = false) by lia. rewrite E.
  rewrite from_int_n_be, Nat2Z.id. now rewrite be_be_val.
Qed.

(** ** C02 *)
Lemma hex_val_digit c v : hex_val c = Some v <-> digit c v.
Proof.
  split.
  - assert (H : forall n, (n < 256)%nat -> match hex_val (ascii_of_nat n) with
              | Some v => (0 <=? v) &&
                  ((match String.get (Z.to_nat v) "0123456789abcdef" with
                    | Some c => Ascii.eqb c (ascii_of_nat n) | None => false end) ||
                   (match String.get (Z.to_nat v) "0123456789ABCDEF" with
                    | Some c => Ascii.eqb c (ascii_of_nat n) | None => false end))
              | None => true end = true).
    { assert (F : forallb (fun n => match hex_val (ascii_of_nat n) with
              | Some v => (0 <=? v) &&
                  ((match String.get (Z.to_nat v) "0123456789abcdef" with
                    | Some c => Ascii.eqb c (ascii_of_nat n) | None => false end) ||
                   (match String.get (Z.to_nat v) "0123456789ABCDEF" with
                    | Some c => Ascii.eqb c (ascii_of_nat n) | None => false end))
              | None => true end) (seq 0 256) = true) by (vm_compute; reflexivity).
      rewrite forallb_forall in F. intros n Hn. apply F. apply in_seq. lia. }
    specialize (H (nat_of_ascii c) (nat_ascii_bounded c)). rewrite ascii_nat_embedding in H.
    intros E. rewrite E in H. unfold digit.
    destruct (String.get (Z.to_nat v) "0123456789abcdef") as [x|],
      (String.get (Z.to_nat v) "0123456789ABCDEF") as [y|];
      apply andb_true_iff in H; destruct H as [H0 H]; apply Z.leb_le in H0; split; try assumption;
      apply orb_true_iff in H; destruct H as [H|H]; try discriminate;
      apply Ascii.eqb_eq in H; subst; tauto.
  - intros [H0 H].
    assert (Hv : (Z.to_nat v < 16)%nat).
    { destruct (le_lt_dec 16 (Z.to_nat v)) as [L|L]; [exfalso|assumption].
      remember (Z.to_nat v) as k eqn:Ek. clear Ek.
      do 16 (destruct k as [|k]; [lia|]). destruct H as [H|H]; destruct k; discriminate. }
    remember (Z.to_nat v) as k. assert (v = Z.of_nat k) by lia. subst v. clear Heqk H0.
    do 16 (destruct k as [|k]; [destruct H as [H|H]; injection H as <-; reflexivity|]).
    lia.
Qed.

Lemma is_space_white c : is_space c = true <-> white c.
Proof.
  unfold is_space, white. split.
  - intros H.
    assert (E : In (nat_of_ascii c) [9; 10; 11; 12; 13; 32]%nat).
    { unfold nat_of_ascii. cbn [In].
      assert (A : Z.of_N (N_of_ascii c) = Z.of_nat (N.to_nat (N_of_ascii c))) by lia. lia. }
    rewrite <- (ascii_nat_embedding c). apply (in_map ascii_of_nat) in E. exact E.
  - intros H. cbn [In] in H. repeat (destruct H as [<-|H]; [reflexivity|]). destruct H.
Qed.

Lemma digit_not_white c v : digit c v -> is_space c = false.
Proof.
  intros H. apply hex_val_digit in H. unfold hex_val in H. unfold is_space.
  generalize dependent (Z.of_N (N_of_ascii c)). intros n H.
  destruct (48 <=? n) eqn:A1, (n <=? 57) eqn:A2, (65 <=? n) eqn:A3, (n <=? 70) eqn:A4,
    (97 <=? n) eqn:A5, (n <=? 102) eqn:A6; cbn [andb] in H; try discriminate; lia.
Qed.

Lemma from_string_text : forall s b, from_string s = Ok b -> hex_text s b.
Proof.
  fix IH 1. intros [|c s] b; cbn [from_string].
  - intros [= <-]. constructor.
  - destruct (is_space c) eqn:Es.
    + intros E. apply ht_white; [now apply is_space_white|]. now apply IH.
    + destruct s as [|d s]; [discriminate|].
      destruct (hex_val c) as [h|] eqn:Eh; [|discriminate].
      destruct (hex_val d) as [l|] eqn:El; [|discriminate].
      specialize (IH s). destruct (from_string s) as [r|e]; cbn [bindr]; [|discriminate].
      intros E. assert (Eb : b = 16 * h + l :: r) by congruence. subst b.
      apply ht_byte; [now apply hex_val_digit|now apply hex_val_digit|]. apply IH. reflexivity.
Qed.

Lemma from_string_complete s b : hex_text s b -> from_string s = Ok b.
Proof.
  induction 1 as [|c s b Hw H IH|c d h l s b Hc Hd H IH]; cbn [from_string]; [reflexivity| |].
  - apply is_space_white in Hw. now rewrite Hw.
  - rewrite (digit_not_white _ _ Hc). apply hex_val_digit in Hc, Hd. rewrite Hc, Hd, IH. reflexivity.
Qed.

Lemma L_C02_from_string : forall s,
  (forall b, from_string s = Ok b <-> hex_text s b) /\
  ((~ exists b, hex_text s b) -> from_string s = Err ValueError).
Proof.
  intros s. split.
  - intros b. split; [apply from_string_text|apply from_string_complete].
  - intros H. destruct (from_string s) as [b|e] eqn:E.
    + destruct H. exists b. now apply from_string_text.
    + f_equal. eapply from_string_exn. eassumption.
Qed.

Lemma L_C02_hex_round_trip : forall b, bytes_ok b ->
  from_string (to_hex_upper b) = Ok b /\ hex_from_string (to_hex_upper b) = Ok (be_val b).
Proof.
  intros b H. unfold hex_from_string. rewrite from_string_to_hex by assumption.
  cbn [bindr]. now rewrite to_int_be_val.
Qed.

Lemma L_C02_message_round_trip : forall m, encodable m -> typed m ->
  exists b s, to_bytes m = Ok b /\ to_string m = Ok s /\
    (forall m0, parse_hexstring m0 s = parse_bytes m0 b) /\
    parse_hexstring new_msg s = (carried m, Ok true).
Proof.
  intros m He Ht. exists (wire m), (to_hex_upper (wire m)).
  pose proof (to_bytes_ok m He) as E. split; [assumption|].
  unfold to_string, parse_hexstring. rewrite E. cbn [bindr]. split; [reflexivity|].
  rewrite from_string_to_hex by now apply wire_bytes_ok. split; [reflexivity|].
  rewrite <- (app_nil_r (wire m)). rewrite parse_wire. reflexivity.
Qed.

Lemma L_C02_hex_from_string : forall s b, hex_text s b -> hex_from_string s = Ok (be_val b).
Proof.
  intros s b H. unfold hex_from_string. rewrite (from_string_complete _ _ H). cbn [bindr].
  now rewrite to_int_be_val.
Qed.

(** ** C03 *)
Lemma L_C03_to_bytes_layout : forall m,
  (encodable m -> to_bytes m = Ok (wire m)) /\
  (~ encodable m -> to_bytes m = Err ValueError).
Proof. intros m. split; [apply to_bytes_ok|apply to_bytes_err]. Qed.

(** ** C04 *)
Lemma L_C04_decode_encode : forall m b, to_bytes m = Ok b ->
  parse_bytes new_msg b = (carried m, Ok true).
Proof.
  intros m b H. apply to_bytes_inv in H. destruct H as [_ ->].
  rewrite <- (app_nil_r (wire m)). rewrite parse_wire. reflexivity.
Qed.

Lemma L_C04_decode_encode_in_range : forall m b,
  0 <= m_TID m < 2 ^ 16 -> 0 <= m_SEOJ m < 2 ^ 24 -> 0 <= m_DEOJ m < 2 ^ 24 ->
  to_bytes m = Ok b ->
  exists m', parse_bytes new_msg b = (m', Ok true) /\
    m_TID m' = m_TID m /\ m_SEOJ m' = m_SEOJ m /\ m_DEOJ m' = m_DEOJ m /\ m_ESV m' = m_ESV m /\
    (if two_blocks (m_ESV m)
     then m_sets m' = m_sets m /\ m_gets m' = m_gets m /\ m_props m' = []
     else m_props m' = m_props m /\ m_sets m' = [] /\ m_gets m' = []).
Proof.
  intros m b HT HS HD H. exists (carried m). split; [now apply L_C04_decode_encode|].
  unfold carried. cbn [m_TID m_SEOJ m_DEOJ m_ESV m_props m_sets m_gets].
  rewrite !Z.mod_small by assumption. destruct (two_blocks (m_ESV m)); repeat split; reflexivity.
Qed.

(** ** C05 *)
Lemma denotes_unique b m m' : denotes b m -> denotes b m' -> m = m'.
Proof.
  intros ((He & Ht & Hc) & tail & ->) ((He' & Ht' & Hc') & tail' & E).
  pose proof (parse_wire new_msg m tail) as P. rewrite E, parse_wire in P.
  assert (Q : carried m' = carried m) by exact (f_equal fst P). congruence.
Qed.

Lemma L_C05_parser_accepts_frames : forall b, bytes_ok b ->
  (forall m, parse_bytes new_msg b = (m, Ok true) <-> denotes b m) /\
  (forall m m', denotes b m -> denotes b m' -> m = m') /\
  (forall x, snd (parse_bytes new_msg b) = Ok x -> x = true).
Proof.
  intros b Hb. split; [|split].
  - intros m. now apply parse_new_iff.
  - intros m m'. apply denotes_unique.
  - intros x. eapply sp_block_mono_msg. reflexivity.
Qed.

(** ** C06 *)
Lemma L_C06_copy_received : forall m0 b m f t, bytes_ok b -> parse_bytes m0 b = (m, Ok true) ->
  let m' := set_to t (set_from f m) in
  (exists b' tail, to_bytes m' = Ok b' /\ b = b' ++ tail) /\
  (exists c, copy_msg m' = Ok c /\ msg_eq c m' = Ok true /\ m_from c = f /\ m_to c = t /\
     c = set_to t (set_from f (carried m))) /\
  (m0 = new_msg -> copy_msg m' = Ok m').
Proof.
  intros m0 b m f t Hb E m'.
  destruct (parse_any_inv m0 b m Hb E) as (c & ((He & Ht & Hc) & tail & ->) & Em).
  assert (Hew : encodable m' /\ wire m' = wire c /\ carried m = c).
  { subst m m'. 
    assert (Htid : forall x, (x mod 2 ^ 16) mod 2 ^ 16 = x mod 2 ^ 16) by (intros; apply Z.mod_mod; lia).
    assert (Heoj : forall x, (x mod 2 ^ 24) mod 2 ^ 24 = x mod 2 ^ 24) by (intros; apply Z.mod_mod; lia).
    assert (C : carried (overlay m0 c) = c).
    { transitivity (carried c); [|exact Hc]. unfold carried, overlay.
      cbn [m_TID m_SEOJ m_DEOJ m_ESV m_props m_sets m_gets].
      rewrite Htid, !Heoj. destruct (two_blocks (m_ESV c)); reflexivity. }
    split; [|split; [|exact C]].
    - unfold encodable in *. unfold overlay, set_to, set_from.
      cbn [m_TID m_SEOJ m_DEOJ m_ESV m_props m_sets m_gets].
      destruct (two_blocks (m_ESV c)); tauto.
    - rewrite <- C at 2. rewrite wire_carried. reflexivity. }
  destruct Hew as (Hem & Hw & Hcm).
  pose proof (to_bytes_ok m' Hem) as Eb.
  assert (Ec : copy_msg m' = Ok (set_to t (set_from f (carried m)))).
  { unfold copy_msg. rewrite Eb. cbn [bindr]. rewrite <- (app_nil_r (wire m')), parse_wire.
    unfold m'. reflexivity. }
  split; [|split].
  - exists (wire m'), tail. split; [assumption|]. now rewrite Hw.
  - eexists. split; [exact Ec|]. split; [|repeat split].
    unfold msg_eq. rewrite Eb. rewrite to_bytes_ok.
    + cbn [bindr]. f_equal. apply bytes_eqb_eq. rewrite Hw, Hcm. reflexivity.
    + rewrite Hcm. exact He.
  - intros ->. rewrite Ec. f_equal. unfold m'. f_equal. f_equal. rewrite Hcm.
    subst m. rewrite overlay_new. symmetry. exact Hc.
Qed.

(** ** C07 *)
Lemma L_C07_malformed_refuted :
  exists b, bytes_ok b /\ (~ exists m, denotes b m) /\
    snd (parse_bytes new_msg b) = Err IndexError.
Proof.
  exists [0x10; 0x81; 0; 1; 0x0E; 0xF0; 0x01; 0x0E; 0xF0; 0x01; 0x62].
  assert (Hb : bytes_ok [0x10; 0x81; 0; 1; 0x0E; 0xF0; 0x01; 0x0E; 0xF0; 0x01; 0x62])
    by (repeat (apply Forall_cons; [unfold byte_ok; lia|]); apply Forall_nil).
  split; [exact Hb|]. split; [|reflexivity].
  intros [m H]. apply parse_new_iff in H; [|exact Hb]. discriminate.
Qed.

Lemma L_C07_malformed_partial : forall b, bytes_ok b -> (~ exists m, denotes b m) ->
  (index_cut b /\ snd (parse_bytes new_msg b) = Err IndexError) \/
  (~ index_cut b /\ snd (parse_bytes new_msg b) = Err ParserError).
Proof.
  intros b Hb Hn. pose proof (parse_index_iff new_msg b Hb) as I.
  destruct (snd (parse_bytes new_msg b)) as [x|e] eqn:E.
  - exfalso. apply Hn. exists (fst (parse_bytes new_msg b)). apply parse_new_iff; [assumption|].
    rewrite (surjective_pairing (parse_bytes new_msg b)) at 1. rewrite E.
    rewrite (sp_block_mono_msg new_msg b _ eq_refl x E). reflexivity.
  - destruct (parse_exn _ _ _ E) as [-> | ->].
    + right. split; [|reflexivity]. intros C. apply I in C. discriminate.
    + left. split; [|reflexivity]. now apply I.
Qed.

(** A frame cut anywhere before its end is never accepted. *)
Lemma L_C07_truncated_never_accepted : forall m b k, to_bytes m = Ok b -> typed m ->
  (k < length b)%nat -> exists e, snd (parse_bytes new_msg (firstn k b)) = Err e /\
    (e = ParserError \/ e = IndexError).
Proof.
  intros m b k H Ht Hk. apply to_bytes_inv in H. destruct H as [He ->].
  pose proof (wire_bytes_ok m He Ht) as Hb.
  destruct (snd (parse_bytes new_msg (firstn k (wire m)))) as [x|e] eqn:E.
  2:{ exists e. split; [reflexivity|]. eapply parse_exn. eassumption. }
  exfalso.
  assert (Hbk : bytes_ok (firstn k (wire m))).
  { unfold bytes_ok in *. rewrite <- (firstn_skipn k (wire m)) in Hb. apply Forall_app in Hb. apply Hb. }
  assert (D : denotes (firstn k (wire m)) (fst (parse_bytes new_msg (firstn k (wire m))))).
  { apply parse_new_iff; [assumption|].
    rewrite (surjective_pairing (parse_bytes new_msg (firstn k (wire m)))) at 1. rewrite E.
    rewrite (sp_block_mono_msg new_msg _ _ eq_refl x E). reflexivity. }
  remember (fst (parse_bytes new_msg (firstn k (wire m)))) as c. clear Heqc E.
  destruct D as ((Hce & Hct & Hcc) & tail & Ek).
  assert (Ew : wire m = wire c ++ (tail ++ skipn k (wire m))).
  { rewrite <- (firstn_skipn k (wire m)) at 1. rewrite Ek. now rewrite <- app_assoc. }
  pose proof (parse_wire new_msg m []) as P. rewrite app_nil_r in P. rewrite Ew, parse_wire in P.
  assert (Q : carried c = carried m) by exact (f_equal fst P).
  assert (Ec : c = carried m) by congruence.
  assert (L : length (wire c) = length (wire m)) by (rewrite Ec, wire_carried; reflexivity).
  apply (f_equal (@length Z)) in Ek. rewrite app_length, firstn_length in Ek. lia.
Qed.

(** ** C08 *)
Lemma L_C08_reparse_refuted :
  exists b m0 m1, bytes_ok b /\ snd (parse_bytes m0 b) = Ok true /\ snd (parse_bytes m1 b) = Ok true /\
    all_properties (fst (parse_bytes m0 b)) <> all_properties (fst (parse_bytes m1 b)) /\
    OPCSet (fst (parse_bytes m0 b)) <> OPCSet (fst (parse_bytes m1 b)).
Proof.
  exists [0x10; 0x81; 0; 1; 0x0E; 0xF0; 0x01; 0x0E; 0xF0; 0x01; 0x62; 1; 0xD6; 0].
  exists new_msg, (set_sets [mkprop 0x80 [0x30]] new_msg).
  split; [repeat (apply Forall_cons; [unfold byte_ok; lia|]); apply Forall_nil|].
  repeat split; try reflexivity; vm_compute; discriminate.
Qed.

Lemma L_C08_reparse_partial : forall b m0 m, bytes_ok b -> parse_bytes m0 b = (m, Ok true) ->
  exists c, denotes b c /\
    m_TID m = m_TID c /\ m_SEOJ m = m_SEOJ c /\ m_DEOJ m = m_DEOJ c /\ m_ESV m = m_ESV c /\
    (if two_blocks (m_ESV c)
     then m_sets m = m_sets c /\ m_gets m = m_gets c /\ m_props m = m_props m0
     else m_props m = m_props c /\ m_sets m = m_sets m0 /\ m_gets m = m_gets m0) /\
    (m_props m0 = [] -> m_sets m0 = [] -> m_gets m0 = [] -> all_properties m = all_properties c).
Proof.
  intros b m0 m Hb E. destruct (parse_any_inv m0 b m Hb E) as (c & D & ->). exists c.
  split; [assumption|]. destruct D as ((He & Ht & Hc) & _).
  assert (HT : m_TID c mod 2 ^ 16 = m_TID c) by (rewrite <- Hc at 2; reflexivity).
  assert (HS : m_SEOJ c mod 2 ^ 24 = m_SEOJ c) by (rewrite <- Hc at 2; reflexivity).
  assert (HD : m_DEOJ c mod 2 ^ 24 = m_DEOJ c) by (rewrite <- Hc at 2; reflexivity).
  assert (HL : all_properties c = if two_blocks (m_ESV c) then m_sets c ++ m_gets c else m_props c).
  { rewrite <- Hc at 1. unfold all_properties, carried. cbn [m_props m_sets m_gets].
    destruct (two_blocks (m_ESV c)); [reflexivity|]. now rewrite !app_nil_r. }
  unfold overlay, all_properties. cbn [m_TID m_SEOJ m_DEOJ m_ESV m_props m_sets m_gets].
  fold (all_properties c). rewrite HT, HS, HD, HL.
  repeat split; auto.
  - destruct (two_blocks (m_ESV c)); auto.
  - intros -> -> ->. destruct (two_blocks (m_ESV c)); [reflexivity|]. now rewrite !app_nil_r.
Qed.

(** ** C09 *)
Lemma L_C09_message_equality : forall a b, encodable a -> encodable b ->
  (exists r, msg_eq a b = Ok r) /\ (msg_eq a b = Ok true <-> carried a = carried b).
Proof.
  intros a b Ha Hb. unfold msg_eq. rewrite (to_bytes_ok a Ha), (to_bytes_ok b Hb). cbn [bindr].
  split; [eexists; reflexivity|]. split.
  - intros E. assert (E' : bytes_eqb (wire a) (wire b) = true) by congruence.
    apply bytes_eqb_eq in E'. now apply wire_inj.
  - intros E. f_equal. apply bytes_eqb_eq. rewrite <- wire_carried, E, wire_carried. reflexivity.
Qed.

Lemma L_C09_message_equivalence :
  (forall a, encodable a -> msg_eq a a = Ok true) /\
  (forall a b, encodable a -> encodable b -> msg_eq a b = Ok true -> msg_eq b a = Ok true) /\
  (forall a b c, encodable a -> encodable b -> encodable c ->
     msg_eq a b = Ok true -> msg_eq b c = Ok true -> msg_eq a c = Ok true) /\
  (forall a f t, encodable a -> msg_eq a (set_to t (set_from f a)) = Ok true).
Proof.
  split; [|split; [|split]].
  - intros a Ha. now apply L_C09_message_equality.
  - intros a b Ha Hb E. apply L_C09_message_equality in E; try assumption.
    apply L_C09_message_equality; auto.
  - intros a b c Ha Hb Hc E1 E2. apply L_C09_message_equality in E1, E2; try assumption.
    apply L_C09_message_equality; try assumption. congruence.
  - intros a f t Ha. apply L_C09_message_equality; [assumption|exact Ha|reflexivity].
Qed.

Lemma L_C09_unencodable : forall a b, ~ (encodable a /\ encodable b) -> msg_eq a b = Err ValueError.
Proof.
  intros a b H. unfold msg_eq. destruct (encodable_dec a) as [Ha|Ha].
  - rewrite (to_bytes_ok a Ha). cbn [bindr]. rewrite (to_bytes_err b) by tauto. reflexivity.
  - rewrite (to_bytes_err a Ha). reflexivity.
Qed.

(** ** C10 *)
Lemma eqb_chain_in e l : fold_right (fun c acc => if e =? c then true else acc) false l = true <-> In e l.
Proof.
  induction l as [|c l IH]; cbn [fold_right In]; [split; [discriminate|tauto]|].
  destruct (Z.eqb_spec e c) as [->|H].
  - split; auto.
  - rewrite IH. split; [auto|]. intros [E|E]; [congruence|assumption].
Qed.

Lemma L_C10_esv_classification : forall e,
  (is_request e = true <-> In e [0x60; 0x61; 0x62; 0x63; 0x6E; 0x74]) /\
  is_response e = negb (is_request e) /\
  (is_read_request e = true <-> In e [0x62; 0x6E]) /\
  (is_write_request e = true <-> In e [0x60; 0x61; 0x6E]) /\
  (is_notification_request e = true <-> In e [0x63]) /\
  (is_read_request e || is_write_request e || is_notification_request e = true ->
     is_request e = true) /\
  (is_response_required e = true <-> (is_request e = true /\ e <> 0x60)) /\
  (is_write_response e = true <-> In e [0x71; 0x7E]) /\
  (is_read_response e = true <-> In e [0x72; 0x7E]) /\
  (is_notification e = true <-> In e [0x73; 0x74]) /\
  (is_notification_response e = true <-> In e [0x7A]) /\
  (is_write_response e || is_read_response e || is_notification_response e
     || is_write_read_response e = true -> is_response e = true) /\
  (is_read_write_message e = true <-> In e [0x6E; 0x7E; 0x5E]) /\
  is_read_write_message e = two_blocks e.
Proof.
  intros e.
  assert (HR : is_request e = true <-> In e [0x60; 0x61; 0x62; 0x63; 0x6E; 0x74])
    by apply (eqb_chain_in e [0x60; 0x61; 0x62; 0x63; 0x6E; 0x74]).
  assert (HP : is_read_request e = true <-> In e [0x62; 0x6E])
    by apply (eqb_chain_in e [0x62; 0x6E]).
  assert (HW : is_write_request e = true <-> In e [0x60; 0x61; 0x6E]).
  { rewrite (eqb_chain_in e [0x60; 0x6E; 0x61] : is_write_request e = true <-> _). cbn [In]. tauto. }
  assert (HN : is_notification_request e = true <-> In e [0x63])
    by apply (eqb_chain_in e [0x63]).
  assert (HQ : is_response_required e = true <-> In e [0x62; 0x63; 0x6E; 0x61; 0x74])
    by apply (eqb_chain_in e [0x62; 0x63; 0x6E; 0x61; 0x74]).
  assert (HWR : is_write_response e = true <-> In e [0x71; 0x7E])
    by apply (eqb_chain_in e [0x71; 0x7E]).
  assert (HRR : is_read_response e = true <-> In e [0x72; 0x7E])
    by apply (eqb_chain_in e [0x72; 0x7E]).
  assert (HNO : is_notification e = true <-> In e [0x73; 0x74])
    by apply (eqb_chain_in e [0x73; 0x74]).
  assert (HNR : is_notification_response e = true <-> In e [0x7A])
    by apply (eqb_chain_in e [0x7A]).
  assert (HX : is_write_read_response e = true <-> In e [0x7E; 0x5E])
    by apply (eqb_chain_in e [0x7E; 0x5E]).
  assert (HM : is_read_write_message e = true <-> In e [0x6E; 0x7E; 0x5E]).
  { rewrite is_read_write_two_blocks. unfold two_blocks. rewrite !orb_true_iff, !Z.eqb_eq. cbn [In].
    clear. lia. }
  split; [assumption|]. split; [reflexivity|]. do 3 (split; [assumption|]).
  split. { rewrite !orb_true_iff, HP, HW, HN, HR. cbn [In]. clear. tauto. }
  split. { rewrite HQ, HR. cbn [In]. clear. lia. }
  do 4 (split; [assumption|]).
  split. { rewrite !orb_true_iff, HWR, HRR, HNR, HX. unfold is_response.
    rewrite negb_true_iff, <- not_true_iff_false, HR. cbn [In]. clear. lia. }
  split; [assumption|]. apply is_read_write_two_blocks.
Qed.

(** ** C64 *)
Lemma L_C64_add_property : forall m a,
  (forall p, (a = PAProp p \/ (a = PAInt (p_code p) /\ p_data p = []) \/
              a = PATuple2 (p_code p) (p_data p)) ->
     add_property a m = (set_props (m_props m ++ [p]) m, true) /\
     add_set_property a m = (set_sets (m_sets m ++ [p]) m, true) /\
     add_get_property a m = (set_gets (m_gets m ++ [p]) m, true)) /\
  ((a = PATupleN \/ a = PAOther) ->
     add_property a m = (m, false) /\ add_set_property a m = (m, false) /\
     add_get_property a m = (m, false)).
Proof.
  intros m a. split.
  - intros p [-> | [[-> E] | ->]].
    + repeat split.
    + destruct p as [c d]. cbn [p_data p_code] in *. subst. repeat split.
    + destruct p. repeat split.
  - intros [-> | ->]; repeat split.
Qed.
