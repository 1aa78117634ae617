(** Lemmas for C93. *)
From Verif Require Import PyBase MsgM SpecWire CodecP SpecBuild.

Lemma meant_prop a : match is_prop (to_property a) with Some p => meant a = [p] | None => meant a = [] end.
Proof. destruct a; reflexivity. Qed.
Lemma add_plain a m : add_property a m = (set_props (m_props m ++ meant a) m, negb (zlen (meant a) =? 0)).
Proof. destruct m as [t s d e ps ss gs f o], a; unfold add_property; cbn [to_property is_prop meant]; unfold set_props; cbn [m_props m_TID m_SEOJ m_DEOJ m_ESV m_sets m_gets m_from m_to]; rewrite ?app_nil_r; reflexivity. Qed.
Lemma add_sets a m : add_set_property a m = (set_sets (m_sets m ++ meant a) m, negb (zlen (meant a) =? 0)).
Proof. destruct m as [t s d e ps ss gs f o], a; unfold add_set_property; cbn [to_property is_prop meant]; unfold set_sets; cbn [m_props m_TID m_SEOJ m_DEOJ m_ESV m_sets m_gets m_from m_to]; rewrite ?app_nil_r; reflexivity. Qed.
Lemma add_gets a m : add_get_property a m = (set_gets (m_gets m ++ meant a) m, negb (zlen (meant a) =? 0)).
Proof. destruct m as [t s d e ps ss gs f o], a; unfold add_get_property; cbn [to_property is_prop meant]; unfold set_gets; cbn [m_props m_TID m_SEOJ m_DEOJ m_ESV m_sets m_gets m_from m_to]; rewrite ?app_nil_r; reflexivity. Qed.
Lemma adds_are l m : do_adds l m =
  (mkmsg (m_TID m) (m_SEOJ m) (m_DEOJ m) (m_ESV m) (m_props m ++ plains l) (m_sets m ++ to_sets l) (m_gets m ++ to_gets l) (m_from m) (m_to m),
   map (fun x => negb (zlen (meant (arg_of x)) =? 0)) l).
Proof.
  revert m; induction l as [|x l IH]; intros m; cbn [do_adds map].
  - unfold plains, to_sets, to_gets. cbn [flat_map]. rewrite !app_nil_r. destruct m; reflexivity.
  - destruct x as [a|a|a]; cbn [do_add arg_of].
    + rewrite add_plain, IH. unfold plains, to_sets, to_gets. cbn [flat_map app]. rewrite app_assoc. destruct m; reflexivity.
    + rewrite add_sets, IH. unfold plains, to_sets, to_gets. cbn [flat_map app]. rewrite app_assoc. destruct m; reflexivity.
    + rewrite add_gets, IH. unfold plains, to_sets, to_gets. cbn [flat_map app]. rewrite app_assoc. destruct m; reflexivity.
Qed.
Definition built (tid : Z) (k : kind) (d : Z) (l : list addition) : msg := set_TID tid (fst (do_adds l (made k d))).
Lemma built_is tid k d l : built tid k d l = mkmsg tid 0x0EF001 d (service k) (plains l) (to_sets l) (to_gets l) None None.
Proof. unfold built. rewrite adds_are. destruct k; reflexivity. Qed.
Lemma built_wire tid k d l : wire (built tid k d l) = frame_of tid k d l.
Proof. rewrite built_is. unfold wire, wire_header, wire_body, frame_of. cbn [m_TID m_SEOJ m_DEOJ m_ESV m_props m_sets m_gets]. change (be 3 0x0EF001) with [0x0E; 0xF0; 0x01]. destruct k; cbn [service two_blocks Z.eqb Pos.eqb orb body]; rewrite <- !app_assoc; reflexivity. Qed.
Lemma built_fits tid k d l : encodable (built tid k d l) <-> fits k l.
Proof. rewrite built_is. unfold encodable. cbn [m_ESV m_props m_sets m_gets]. destruct k; cbn [service two_blocks Z.eqb Pos.eqb orb fits]; unfold byte_ok; (split; [intros (_ & X); exact X|intros X; split; [lia|exact X]]). Qed.

Lemma L_C93_frame : forall k d l tid, let m := set_TID tid (fst (do_adds l (made k d))) in
  (fits k l -> to_bytes m = Ok (frame_of tid k d l)) /\ (~ fits k l -> to_bytes m = Err ValueError).
Proof.
  intros k d l tid m. change m with (built tid k d l). rewrite <- built_wire, <- (built_fits tid k d l). apply L_C03_to_bytes_layout.
Qed.
Lemma L_C93_returns : forall k d l, snd (do_adds l (made k d)) = map (fun x => negb (zlen (meant (arg_of x)) =? 0)) l.
Proof. intros k d l. rewrite adds_are. reflexivity. Qed.
Lemma L_C93_received : forall k d l tid b, 0 <= tid < 65536 -> 0 <= d < 16777216 ->
  to_bytes (set_TID tid (fst (do_adds l (made k d)))) = Ok b ->
  parse_bytes new_msg b = (match k with
    | WriteRead => mkmsg tid 0x0EF001 d 0x6E [] (to_sets l) (to_gets l) None None
    | _ => mkmsg tid 0x0EF001 d (service k) (plains l) [] [] None None end, Ok true).
Proof.
  intros k d l tid b Ht Hd E. rewrite (L_C04_decode_encode _ _ E). change (set_TID tid (fst (do_adds l (made k d)))) with (built tid k d l).
  rewrite built_is. unfold carried. cbn [m_TID m_SEOJ m_DEOJ m_ESV m_props m_sets m_gets]. rewrite (Z.mod_small tid), (Z.mod_small d) by (cbn; lia). change (0x0EF001 mod 2 ^ 24) with 0x0EF001. destruct k; reflexivity.
Qed.
Lemma L_C93_dropped_refuted : forall k d l x tid, suits k x = false -> meant (arg_of x) <> [] ->
  let m := set_TID tid (fst (do_adds l (made k d))) in
  snd (do_add x m) = true /\ to_bytes (fst (do_add x m)) = to_bytes m.
Proof.
  intros k d l x tid N M m. change m with (built tid k d l). rewrite built_is. destruct x as [a|a|a]; cbn [do_add arg_of] in *.
  - rewrite add_plain. cbn [fst snd]. split; [destruct (meant a); [congruence|reflexivity]|].
    destruct k; cbn in N; try discriminate. reflexivity.
  - rewrite add_sets. cbn [fst snd]. split; [destruct (meant a); [congruence|reflexivity]|].
    destruct k; cbn in N; try discriminate; reflexivity.
  - rewrite add_gets. cbn [fst snd]. split; [destruct (meant a); [congruence|reflexivity]|].
    destruct k; cbn in N; try discriminate; reflexivity.
Qed.
