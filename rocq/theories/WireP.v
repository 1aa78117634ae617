(** Lemmas about the message encoder and parser. *)
From Verif Require Import PyBase BytesM EsvM MsgM SpecWire BytesP.
Require Import ZifyBool ZifyNat ZifyN.

Lemma zlen_nonneg {A} (l : list A) : 0 <= zlen l.
Proof. unfold zlen. lia. Qed.

Lemma is_read_write_two_blocks e : is_read_write_message e = two_blocks e.
Proof.
  unfold is_read_write_message, is_write_read_request, is_write_read_response, two_blocks,
    WRITE_READ_REQUEST, WRITE_READ_RESPONSE, WRITE_READ_REQUEST_ERROR.
  destruct (e =? 0x6E); [reflexivity|]. destruct (e =? 0x7E); [reflexivity|].
  destruct (e =? 0x5E); reflexivity.
Qed.

(** ** Encoder *)

Lemma append_props_ok buf ps : Forall fits_prop ps ->
  append_props buf ps = Ok (buf ++ flat_map wire_prop ps).
Proof.
  revert buf; induction ps as [|p ps IH]; intros buf H; cbn [append_props flat_map].
  - now rewrite app_nil_r.
  - inversion H as [|? ? [Hc Hd] Hps]; subst. unfold ba_append.
    apply byte_okb_spec in Hc. rewrite Hc. cbn [bindr].
    assert (Hd' : byte_okb (zlen (p_data p)) = true).
    { apply byte_okb_spec. unfold byte_ok. pose proof (zlen_nonneg (p_data p)). lia. }
    rewrite Hd'. cbn [bindr]. rewrite IH by assumption. unfold wire_prop.
    f_equal. repeat (rewrite <- app_assoc; cbn [app]). reflexivity.
Qed.

Lemma append_props_err buf ps : ~ Forall fits_prop ps ->
  append_props buf ps = Err ValueError.
Proof.
  revert buf; induction ps as [|p ps IH]; intros buf H; cbn [append_props].
  - destruct H. constructor.
  - unfold ba_append. destruct (byte_okb (p_code p)) eqn:Hc; [|reflexivity]. cbn [bindr].
    destruct (byte_okb (zlen (p_data p))) eqn:Hd; [|reflexivity]. cbn [bindr].
    apply IH. intros Hps. apply H. constructor; [|assumption].
    apply byte_okb_spec in Hc, Hd. unfold byte_ok in Hd. split; [assumption|lia].
Qed.

Lemma append_property_bytes_ok buf ps : fits_list ps ->
  append_property_bytes buf ps = Ok (buf ++ wire_props ps).
Proof.
  intros [Hl Hf]. unfold append_property_bytes, ba_append.
  assert (E : byte_okb (zlen ps) = true).
  { apply byte_okb_spec. unfold byte_ok. pose proof (zlen_nonneg ps). lia. }
  rewrite E. cbn [bindr]. rewrite append_props_ok by assumption.
  unfold wire_props. rewrite <- app_assoc. reflexivity.
Qed.

Lemma fits_prop_dec p : {fits_prop p} + {~ fits_prop p}.
Proof.
  unfold fits_prop, byte_ok.
  destruct (Z_le_dec 0 (p_code p)); [|right; lia].
  destruct (Z_lt_dec (p_code p) 256); [|right; lia].
  destruct (Z_le_dec (zlen (p_data p)) 255); [left; lia|right; lia].
Qed.

Lemma fits_list_dec ps : {fits_list ps} + {~ fits_list ps}.
Proof.
  unfold fits_list. destruct (Z_le_dec (zlen ps) 255); [|right; lia].
  destruct (Forall_dec fits_prop fits_prop_dec ps); [left|right]; tauto.
Qed.

Lemma append_property_bytes_err buf ps : ~ fits_list ps ->
  append_property_bytes buf ps = Err ValueError.
Proof.
  intros H. unfold append_property_bytes, ba_append.
  destruct (byte_okb (zlen ps)) eqn:E; [|reflexivity]. cbn [bindr].
  apply append_props_err. intros Hf. apply H. split; [|assumption].
  apply byte_okb_spec in E. unfold byte_ok in E. lia.
Qed.

Lemma encodable_dec m : {encodable m} + {~ encodable m}.
Proof.
  unfold encodable. destruct (byte_okb (m_ESV m)) eqn:E.
  2:{ right. apply byte_okb_false in E. tauto. }
  apply byte_okb_spec in E.
  destruct (two_blocks (m_ESV m)).
  - destruct (fits_list_dec (m_sets m)); [|right; tauto].
    destruct (fits_list_dec (m_gets m)); [left|right]; tauto.
  - destruct (fits_list_dec (m_props m)); [left|right]; tauto.
Qed.

Lemma to_bytes_ok m : encodable m -> to_bytes m = Ok (wire m).
Proof.
  intros [He Hb]. unfold to_bytes, ba_append.
  apply byte_okb_spec in He. rewrite He. cbn [bindr].
  rewrite is_read_write_two_blocks, !from_int_n_be. unfold wire, wire_header, wire_body.
  destruct (two_blocks (m_ESV m)).
  - destruct Hb as [Hs Hg]. rewrite append_property_bytes_ok by assumption. cbn [bindr].
    rewrite append_property_bytes_ok by assumption.
    unfold EHD1_ECHONET, EHD2_FORMAT1. rewrite <- !app_assoc. reflexivity.
  - rewrite append_property_bytes_ok by assumption.
    unfold EHD1_ECHONET, EHD2_FORMAT1. rewrite <- !app_assoc. reflexivity.
Qed.

Lemma to_bytes_err m : ~ encodable m -> to_bytes m = Err ValueError.
Proof.
  intros H. unfold to_bytes, ba_append.
  destruct (byte_okb (m_ESV m)) eqn:He; [|reflexivity]. cbn [bindr].
  apply byte_okb_spec in He. rewrite is_read_write_two_blocks.
  unfold encodable in H. destruct (two_blocks (m_ESV m)).
  - destruct (fits_list_dec (m_sets m)) as [Hs|Hs].
    + rewrite append_property_bytes_ok by assumption. cbn [bindr].
      apply append_property_bytes_err. tauto.
    + rewrite append_property_bytes_err by assumption. reflexivity.
  - apply append_property_bytes_err. tauto.
Qed.

Lemma to_bytes_inv m b : to_bytes m = Ok b -> encodable m /\ b = wire m.
Proof.
  intros E. destruct (encodable_dec m) as [H|H].
  - rewrite (to_bytes_ok m H) in E. split; [assumption|congruence].
  - rewrite (to_bytes_err m H) in E. discriminate.
Qed.

(** ** Parser: a stream view of the offset loop *)

Fixpoint sp_loop (k : nat) (s : list Z) : res (list Z * list prop) :=
  match k with
  | O => Ok (s, [])
  | S k' =>
      match s with
      | [] => Err ParserError
      | [_] => Err IndexError
      | c :: d :: r =>
          if (length r <? Z.to_nat d)%nat then Err ParserError
          else
            match sp_loop k' (skipn (Z.to_nat d) r) with
            | Ok (s', ps) => Ok (s', mkprop c (firstn (Z.to_nat d) r) :: ps)
            | Err e => Err e
            end
      end
  end.

Definition sp_block (s : list Z) : res (list Z * list prop) :=
  match s with
  | [] => Err IndexError
  | n :: r => sp_loop (Z.to_nat n) r
  end.

Lemma nth_error_skipn {A} (l : list A) i j : nth_error (skipn i l) j = nth_error l (i + j).
Proof.
  revert l; induction i as [|i IH]; intros l; [reflexivity|].
  destruct l as [|x l]; cbn [skipn Nat.add nth_error].
  - now destruct j.
  - apply IH.
Qed.

Lemma skipn_skipn {A} (l : list A) i j : skipn i (skipn j l) = skipn (j + i) l.
Proof.
  revert l; induction j as [|j IH]; intros l; [reflexivity|].
  destruct l as [|x l]; cbn [skipn Nat.add]; [now rewrite skipn_nil|apply IH].
Qed.

Lemma sp_loop_length k s s' ps : sp_loop k s = Ok (s', ps) -> (length s' <= length s)%nat.
Proof.
  revert s s' ps; induction k as [|k IH]; intros s s' ps; cbn [sp_loop].
  - intros [= <- <-]. lia.
  - destruct s as [|c [|d r]]; [discriminate|discriminate|].
    destruct (length r <? Z.to_nat d)%nat eqn:E; [discriminate|].
    destruct (sp_loop k (skipn (Z.to_nat d) r)) as [[s1 p1]|] eqn:E1; [|discriminate].
    intros [= <- <-]. apply IH in E1. rewrite skipn_length in E1. cbn [length]. lia.
Qed.

Lemma parse_prop_loop_stream b k : forall off acc, (off <= length b)%nat ->
  parse_prop_loop b k off acc =
  match sp_loop k (skipn off b) with
  | Ok (s, ps) => Ok ((length b - length s)%nat, acc ++ ps)
  | Err e => Err e
  end.
Proof.
  induction k as [|k IH]; intros off acc Ho; cbn [parse_prop_loop sp_loop].
  - rewrite skipn_length, app_nil_r. repeat f_equal. lia.
  - assert (El : length (skipn off b) = (length b - off)%nat) by apply skipn_length.
    pose proof (nth_error_skipn b off 0) as N0. rewrite Nat.add_0_r in N0.
    pose proof (nth_error_skipn b off 1) as N1.
    pose proof (skipn_skipn b 2 off) as N2.
    destruct (skipn off b) as [|c [|d r]]; cbn [length nth_error skipn] in El, N0, N1, N2.
    + assert (Hlt : (length b <? off + 1)%nat = true) by lia. rewrite Hlt. reflexivity.
    + assert (Hlt : (length b <? off + 1)%nat = false) by lia. rewrite Hlt.
      unfold py_index. rewrite <- N0. cbn [bindr]. rewrite <- N1. reflexivity.
    + assert (Hlt : (length b <? off + 1)%nat = false) by lia. rewrite Hlt.
      unfold py_index. rewrite <- N0. cbn [bindr]. rewrite <- N1. cbn [bindr].
      assert (Hc : (length b <? off + 1 + 1 + Z.to_nat d)%nat = (length r <? Z.to_nat d)%nat)
        by lia.
      rewrite Hc. destruct (length r <? Z.to_nat d)%nat eqn:E; [reflexivity|].
      rewrite IH by lia.
      replace (skipn (off + 1 + 1 + Z.to_nat d) b) with (skipn (Z.to_nat d) r).
      2:{ rewrite N2, skipn_skipn. f_equal. lia. }
      destruct (sp_loop k (skipn (Z.to_nat d) r)) as [[s ps]|e]; [|reflexivity].
      rewrite <- app_assoc. cbn [app].
      assert (Hsl : py_slice b (off + 1 + 1) (off + 1 + 1 + Z.to_nat d) = firstn (Z.to_nat d) r).
      { unfold py_slice. rewrite N2.
        replace (off + 1 + 1 + Z.to_nat d - (off + 1 + 1))%nat with (Z.to_nat d) by lia.
        replace (off + 1 + 1)%nat with (off + 2)%nat by lia. reflexivity. }
      rewrite Hsl. reflexivity.
Qed.

Lemma parse_property_bytes_stream b off : (off <= length b)%nat ->
  parse_property_bytes b off =
  match sp_block (skipn off b) with
  | Ok (s, ps) => Ok ((length b - length s)%nat, ps)
  | Err e => Err e
  end.
Proof.
  intros Ho. unfold parse_property_bytes, py_index, sp_block.
  pose proof (nth_error_skipn b off 0) as N0. rewrite Nat.add_0_r in N0.
  pose proof (skipn_skipn b 1 off) as N1.
  assert (El : length (skipn off b) = (length b - off)%nat) by apply skipn_length.
  destruct (skipn off b) as [|n r]; cbn [nth_error skipn length] in *; rewrite <- N0;
    cbn [bindr]; [reflexivity|].
  rewrite parse_prop_loop_stream by lia. rewrite <- N1.
  destruct (sp_loop (Z.to_nat n) r) as [[s ps]|e]; reflexivity.
Qed.

Lemma skipn_suffix_len {A} (l s : list A) :
  (exists p, l = p ++ s) -> skipn (length l - length s) l = s.
Proof.
  intros [p ->]. rewrite app_length. replace (length p + length s - length s)%nat with (length p) by lia.
  induction p; simpl; auto.
Qed.

Lemma sp_loop_suffix k s s' ps : sp_loop k s = Ok (s', ps) -> exists p, s = p ++ s'.
Proof.
  revert s s' ps; induction k as [|k IH]; intros s s' ps; cbn [sp_loop].
  - intros [= <- <-]. now exists [].
  - destruct s as [|c [|d r]]; [discriminate|discriminate|].
    destruct (length r <? Z.to_nat d)%nat eqn:E; [discriminate|].
    destruct (sp_loop k (skipn (Z.to_nat d) r)) as [[s1 p1]|] eqn:E1; [|discriminate].
    intros [= <- <-]. apply IH in E1. destruct E1 as [p Hp].
    exists (c :: d :: firstn (Z.to_nat d) r ++ p). cbn [app]. rewrite <- app_assoc, <- Hp.
    now rewrite firstn_skipn.
Qed.

Lemma sp_block_suffix s s' ps : sp_block s = Ok (s', ps) -> exists p, s = p ++ s'.
Proof.
  unfold sp_block. destruct s as [|n r]; [discriminate|]. intros E.
  apply sp_loop_suffix in E. destruct E as [p ->]. now exists (n :: p).
Qed.

(** The parser on a list with an explicit 11-byte header. *)
Definition body_parse (m4 : msg) (esv : Z) (body : list Z) : msg * res bool :=
  if two_blocks esv then
    match sp_block body with
    | Err e => (m4, Err e)
    | Ok (s, ps) =>
        match sp_block s with
        | Err e => (set_sets ps m4, Err e)
        | Ok (_, qs) => (set_gets qs (set_sets ps m4), Ok true)
        end
    end
  else
    match sp_block body with
    | Err e => (m4, Err e)
    | Ok (_, ps) => (set_props ps m4, Ok true)
    end.

Lemma suffix_trans {A} (l s s' p p' : list A) : l = p ++ s -> s = p' ++ s' -> exists q, l = q ++ s'.
Proof. intros -> ->. exists (p ++ p'). now rewrite app_assoc. Qed.

Lemma parse_bytes_header m t1 t2 s1 s2 s3 d1 d2 d3 esv body :
  parse_bytes m (0x10 :: 0x81 :: t1 :: t2 :: s1 :: s2 :: s3 :: d1 :: d2 :: d3 :: esv :: body)
  = body_parse
      (set_ESV esv (set_DEOJ (to_int [d1; d2; d3])
         (set_SEOJ (to_int [s1; s2; s3]) (set_TID (to_int [t1; t2]) m)))) esv body.
Proof.
  set (b := 0x10 :: 0x81 :: t1 :: t2 :: s1 :: s2 :: s3 :: d1 :: d2 :: d3 :: esv :: body).
  unfold parse_bytes.
  assert (Hl : (length b <? FORMAT1_HEADER_SIZE)%nat = false) by reflexivity.
  rewrite Hl. change (py_index b 0) with (Ok (A:=Z) 0x10).
  change (py_index b 1) with (Ok (A:=Z) 0x81). change (py_index b 10) with (Ok (A:=Z) esv).
  change (py_slice b 2 4) with [t1; t2]. change (py_slice b 4 7) with [s1; s2; s3].
  change (py_slice b 7 10) with [d1; d2; d3].
  cbv beta iota zeta. cbn [negb Z.eqb Pos.eqb EHD1_ECHONET EHD2_FORMAT1].
  rewrite is_read_write_two_blocks. unfold body_parse.
  assert (Hb : (11 <= length b)%nat) by (unfold b; cbn [length]; lia).
  rewrite parse_property_bytes_stream by assumption.
  change (skipn 11 b) with body.
  destruct (two_blocks esv).
  - destruct (sp_block body) as [[s ps]|e] eqn:E; [|reflexivity].
    rewrite parse_property_bytes_stream by lia.
    rewrite skipn_suffix_len.
    2:{ apply sp_block_suffix in E. destruct E as [p Hp].
        eapply suffix_trans; [|exact Hp].
        instantiate (1 := [0x10; 0x81; t1; t2; s1; s2; s3; d1; d2; d3; esv]). reflexivity. }
    destruct (sp_block s) as [[s' qs]|e]; reflexivity.
  - destruct (sp_block body) as [[s ps]|e] eqn:E; reflexivity.
Qed.

(** ** Blocks *)

Lemma firstn_app_len {A} (l r : list A) : firstn (length l) (l ++ r) = l.
Proof. rewrite firstn_app, Nat.sub_diag, firstn_all, firstn_O. apply app_nil_r. Qed.
Lemma skipn_app_len {A} (l r : list A) : skipn (length l) (l ++ r) = r.
Proof. rewrite skipn_app, Nat.sub_diag, skipn_all. reflexivity. Qed.

Lemma sp_loop_wire ps s :
  sp_loop (length ps) (flat_map wire_prop ps ++ s) = Ok (s, ps).
Proof.
  induction ps as [|p ps IH]; cbn [length sp_loop flat_map]; [reflexivity|].
  unfold wire_prop at 1. rewrite <- app_assoc. cbn [app].
  unfold zlen. rewrite Nat2Z.id.
  assert (E : (length (p_data p ++ flat_map wire_prop ps ++ s) <? length (p_data p))%nat = false).
  { rewrite app_length. lia. }
  rewrite E, skipn_app_len, IH, firstn_app_len. destruct p; reflexivity.
Qed.

Lemma sp_block_wire ps s : sp_block (wire_props ps ++ s) = Ok (s, ps).
Proof.
  unfold wire_props. cbn [app sp_block]. unfold zlen. rewrite Nat2Z.id. apply sp_loop_wire.
Qed.

Lemma sp_loop_inv k s s' ps : bytes_ok s -> sp_loop k s = Ok (s', ps) ->
  s = flat_map wire_prop ps ++ s' /\ length ps = k /\ Forall fits_prop ps /\ Forall data_ok ps.
Proof.
  revert s s' ps; induction k as [|k IH]; intros s s' ps Hs; cbn [sp_loop].
  - intros [= <- <-]. repeat split; constructor.
  - destruct s as [|c [|d r]]; [discriminate|discriminate|].
    inversion Hs as [|? ? Hc Hs1]; subst. inversion Hs1 as [|? ? Hd Hr]; subst.
    destruct (length r <? Z.to_nat d)%nat eqn:E; [discriminate|].
    destruct (sp_loop k (skipn (Z.to_nat d) r)) as [[s1 p1]|] eqn:E1; [|discriminate].
    intros [= <- <-].
    assert (Hr1 : bytes_ok (firstn (Z.to_nat d) r) /\ bytes_ok (skipn (Z.to_nat d) r)).
    { unfold bytes_ok in *. rewrite <- (firstn_skipn (Z.to_nat d) r) in Hr.
      apply Forall_app in Hr. exact Hr. }
    destruct Hr1 as [Hf Hk]. unfold byte_ok in Hd.
    assert (Hlen : zlen (firstn (Z.to_nat d) r) = d).
    { unfold zlen. rewrite firstn_length. lia. }
    destruct (IH _ _ _ Hk E1) as (Eq & L & F & D). repeat split.
    + cbn [flat_map]. unfold wire_prop at 1. cbn [p_code p_data]. rewrite Hlen.
      rewrite <- app_assoc. cbn [app]. now rewrite <- Eq, firstn_skipn.
    + cbn [length]. now rewrite L.
    + constructor; [|assumption]. split; cbn [p_code p_data]; [assumption|lia].
    + constructor; [|assumption]. exact Hf.
Qed.

Lemma sp_block_inv s s' ps : bytes_ok s -> sp_block s = Ok (s', ps) ->
  s = wire_props ps ++ s' /\ fits_list ps /\ Forall data_ok ps.
Proof.
  unfold sp_block. destruct s as [|n r]; [discriminate|]. intros H E.
  inversion H as [|? ? Hn Hr]; subst. apply sp_loop_inv in E; [|assumption].
  destruct E as (E & L & F & D). unfold byte_ok in Hn. unfold wire_props, fits_list, zlen.
  rewrite L. repeat split; [|lia|assumption|assumption]. cbn [app]. rewrite <- E. f_equal. lia.
Qed.

Lemma sp_loop_index k s : bytes_ok s ->
  (sp_loop k s = Err IndexError <->
   exists ps c, (length ps < k)%nat /\ Forall fits_prop ps /\ s = flat_map wire_prop ps ++ [c]).
Proof.
  intros Hs. split.
  - revert s Hs; induction k as [|k IH]; intros s Hs; cbn [sp_loop]; [discriminate|].
    destruct s as [|c [|d r]]; [discriminate| |].
    + intros _. exists [], c. cbn. repeat split; [lia|constructor].
    + inversion Hs as [|? ? Hc Hs1]; subst. inversion Hs1 as [|? ? Hd Hr]; subst.
      destruct (length r <? Z.to_nat d)%nat eqn:E; [discriminate|].
      destruct (sp_loop k (skipn (Z.to_nat d) r)) as [[s1 p1]|e] eqn:E1; [discriminate|].
      intros [= ->].
      assert (Hk : bytes_ok (skipn (Z.to_nat d) r)).
      { unfold bytes_ok in *. rewrite <- (firstn_skipn (Z.to_nat d) r) in Hr.
        apply Forall_app in Hr. apply Hr. }
      destruct (IH _ Hk E1) as (ps & c' & L & F & Eq). unfold byte_ok in Hd.
      assert (Hlen : zlen (firstn (Z.to_nat d) r) = d).
      { unfold zlen. rewrite firstn_length. lia. }
      exists (mkprop c (firstn (Z.to_nat d) r) :: ps), c'. repeat split.
      * cbn [length]. lia.
      * constructor; [|assumption]. split; cbn [p_code p_data]; [assumption|lia].
      * cbn [flat_map]. unfold wire_prop at 1. cbn [p_code p_data]. rewrite Hlen.
        rewrite <- app_assoc. cbn [app]. now rewrite <- Eq, firstn_skipn.
  - intros (ps & c & L & F & ->). clear Hs. revert k L; induction ps as [|p ps IH]; intros k L.
    + destruct k; cbn [length] in L; [lia|]. reflexivity.
    + destruct k; cbn [length] in L; [lia|]. cbn [sp_loop flat_map].
      inversion F as [|? ? Hp Hps]; subst.
      unfold wire_prop at 1. rewrite <- app_assoc. cbn [app].
      unfold zlen. rewrite Nat2Z.id.
      assert (E : (length (p_data p ++ flat_map wire_prop ps ++ [c]) <? length (p_data p))%nat = false).
      { rewrite app_length. lia. }
      rewrite E, skipn_app_len, IH by (assumption || lia). reflexivity.
Qed.

Lemma sp_loop_exn k s e : sp_loop k s = Err e -> e = ParserError \/ e = IndexError.
Proof.
  revert s; induction k as [|k IH]; intros s; cbn [sp_loop]; [discriminate|].
  destruct s as [|c [|d r]]; [intros [= <-]; tauto|intros [= <-]; tauto|].
  destruct (length r <? Z.to_nat d)%nat; [intros [= <-]; tauto|].
  destruct (sp_loop k (skipn (Z.to_nat d) r)) as [[s1 p1]|e1] eqn:E1; [discriminate|].
  intros [= <-]. eauto.
Qed.

Lemma sp_block_exn s e : sp_block s = Err e -> e = ParserError \/ e = IndexError.
Proof. unfold sp_block. destruct s; [intros [= <-]; tauto|apply sp_loop_exn]. Qed.

Lemma sp_block_index s : bytes_ok s ->
  (sp_block s = Err IndexError <-> s = [] \/ block_cut s).
Proof.
  intros Hs. unfold sp_block, block_cut. destruct s as [|n r].
  - split; [tauto|]. reflexivity.
  - inversion Hs as [|? ? Hn Hr]; subst. unfold byte_ok in Hn.
    rewrite sp_loop_index by assumption. split.
    + intros (ps & c & L & F & ->). right. exists n, ps, c. unfold zlen. repeat split; try assumption; lia.
    + intros [H|(n' & ps & c & L & F & E)]; [discriminate|]. injection E as <- ->.
      exists ps, c. unfold zlen in L. repeat split; try assumption; lia.
Qed.

(** ** Whole frames *)

Lemma be2 v : be 2 v = [(v / 256) mod 256; v mod 256].
Proof. cbn [be]. change (256 ^ Z.of_nat 1) with 256. change (256 ^ Z.of_nat 0) with 1. now rewrite Z.div_1_r. Qed.
Lemma be3 v : be 3 v = [(v / 65536) mod 256; (v / 256) mod 256; v mod 256].
Proof. change (be 3 v) with ((v / 256 ^ Z.of_nat 2) mod 256 :: be 2 v). now rewrite be2. Qed.

Lemma to_int_be2 v : to_int (be 2 v) = v mod 2 ^ 16.
Proof. rewrite to_int_be_val, be_val_be. reflexivity. Qed.
Lemma to_int_be3 v : to_int (be 3 v) = v mod 2 ^ 24.
Proof. rewrite to_int_be_val, be_val_be. reflexivity. Qed.

(** Result of parsing a frame into an arbitrary message object [m0]. *)
Definition overlay (m0 m : msg) : msg :=
  mkmsg (m_TID m mod 2 ^ 16) (m_SEOJ m mod 2 ^ 24) (m_DEOJ m mod 2 ^ 24) (m_ESV m)
    (if two_blocks (m_ESV m) then m_props m0 else m_props m)
    (if two_blocks (m_ESV m) then m_sets m else m_sets m0)
    (if two_blocks (m_ESV m) then m_gets m else m_gets m0)
    (m_from m0) (m_to m0).

Lemma parse_wire m0 m tail : parse_bytes m0 (wire m ++ tail) = (overlay m0 m, Ok true).
Proof.
  unfold wire, wire_header. rewrite be2, !be3. cbn [app].
  rewrite parse_bytes_header. rewrite <- (be3 (m_SEOJ m)), <- (be3 (m_DEOJ m)), <- (be2 (m_TID m)), to_int_be2, !to_int_be3.
  unfold body_parse, wire_body, overlay.
  destruct (two_blocks (m_ESV m)) eqn:E.
  - rewrite <- app_assoc, sp_block_wire, sp_block_wire. reflexivity.
  - rewrite sp_block_wire. reflexivity.
Qed.

Lemma overlay_new m : overlay new_msg m = carried m.
Proof. reflexivity. Qed.

Lemma list11 (b : list Z) : (11 <= length b)%nat ->
  exists a0 a1 a2 a3 a4 a5 a6 a7 a8 a9 a10 r,
    b = a0 :: a1 :: a2 :: a3 :: a4 :: a5 :: a6 :: a7 :: a8 :: a9 :: a10 :: r.
Proof.
  intros H. do 11 (destruct b as [|? b]; [cbn [length] in H; lia|]).
  repeat eexists.
Qed.

(** Header of an accepted or rejected list. *)
Lemma parse_bytes_short m b : (length b < 8)%nat -> parse_bytes m b = (m, Err ParserError).
Proof. intros H. unfold parse_bytes, FORMAT1_HEADER_SIZE. assert (E : (length b <? 8)%nat = true) by lia. now rewrite E. Qed.

Lemma parse_bytes_bad0 m a0 r : a0 <> 0x10 -> parse_bytes m (a0 :: r) = (m, Err ParserError).
Proof.
  intros H. unfold parse_bytes. destruct (length (a0 :: r) <? FORMAT1_HEADER_SIZE)%nat; [reflexivity|].
  cbn [py_index nth_error]. unfold EHD1_ECHONET. apply Z.eqb_neq in H. now rewrite H.
Qed.
Lemma parse_bytes_bad1 m a0 a1 r : a1 <> 0x81 -> parse_bytes m (a0 :: a1 :: r) = (m, Err ParserError).
Proof.
  intros H. unfold parse_bytes. destruct (length (a0 :: a1 :: r) <? FORMAT1_HEADER_SIZE)%nat; [reflexivity|].
  cbn [py_index nth_error]. destruct (negb (a0 =? EHD1_ECHONET)); [reflexivity|].
  unfold EHD2_FORMAT1. apply Z.eqb_neq in H. now rewrite H.
Qed.
Lemma parse_bytes_mid m r : (6 <= length r <= 8)%nat ->
  snd (parse_bytes m (0x10 :: 0x81 :: r)) = Err IndexError.
Proof.
  intros H. unfold parse_bytes, FORMAT1_HEADER_SIZE.
  assert (E : (length (0x10 :: 0x81 :: r)%Z <? 8)%nat = false) by (cbn [length]; lia). rewrite E.
  change (py_index (0x10 :: 0x81 :: r) 0) with (Ok (A:=Z) 0x10).
  change (py_index (0x10 :: 0x81 :: r) 1) with (Ok (A:=Z) 0x81).
  cbv beta iota zeta. cbn [negb Z.eqb Pos.eqb EHD1_ECHONET EHD2_FORMAT1].
  unfold py_index at 1.
  assert (N : nth_error (0x10 :: 0x81 :: r) 10 = None) by (apply nth_error_None; cbn [length]; lia).
  now rewrite N.
Qed.

(** Case analysis on a byte string: too short / wrong header / header of 8..10 bytes / full header. *)
Lemma header_cases (b : list Z) :
  (length b < 8)%nat \/
  (exists a0 r, b = a0 :: r /\ a0 <> 0x10) \/
  (exists a0 a1 r, b = a0 :: a1 :: r /\ a1 <> 0x81) \/
  (exists r, b = 0x10 :: 0x81 :: r /\ (6 <= length r <= 8)%nat) \/
  (exists t1 t2 s1 s2 s3 d1 d2 d3 esv body,
     b = 0x10 :: 0x81 :: t1 :: t2 :: s1 :: s2 :: s3 :: d1 :: d2 :: d3 :: esv :: body).
Proof.
  destruct (Nat.ltb_spec (length b) 8) as [H|H]; [tauto|].
  destruct b as [|a0 [|a1 r]]; [cbn [length] in H; lia|cbn [length] in H; lia|].
  destruct (Z.eq_dec a0 0x10) as [->|H0].
  2:{ right; left. exists a0, (a1 :: r). tauto. }
  destruct (Z.eq_dec a1 0x81) as [->|H1].
  2:{ do 2 right; left. exists 0x10, a1, r. tauto. }
  do 3 right. destruct (le_lt_dec (length r) 8) as [L|L].
  - left. exists r. cbn [length] in H. split; [reflexivity|lia].
  - right. destruct (list11 (0x10 :: 0x81 :: r)) as (c0 & c1 & c2 & c3 & c4 & c5 & c6 & c7 & c8 & c9 & c10 & q & E).
    { cbn [length]. lia. }
    exists c2, c3, c4, c5, c6, c7, c8, c9, c10, q. congruence.
Qed.

Lemma parse_new_inv b m : bytes_ok b -> parse_bytes new_msg b = (m, Ok true) -> denotes b m.
Proof.
  intros Hb E.
  destruct (header_cases b) as [H|[(a0 & r & -> & H)|[(a0 & a1 & r & -> & H)|[(r & -> & H)|
    (t1 & t2 & s1 & s2 & s3 & d1 & d2 & d3 & esv & body & ->)]]]].
  - rewrite parse_bytes_short in E by assumption. discriminate.
  - rewrite parse_bytes_bad0 in E by assumption. discriminate.
  - rewrite parse_bytes_bad1 in E by assumption. discriminate.
  - pose proof (parse_bytes_mid new_msg r H) as E'. rewrite E in E'. discriminate.
  - rewrite parse_bytes_header in E. unfold bytes_ok in Hb.
    repeat match goal with H : Forall byte_ok (_ :: _) |- _ =>
      let Hx := fresh "Bx" in let Hr := fresh "Br" in
      inversion H as [|? ? Hx Hr]; subst; clear H end.
    assert (HT : be 2 (to_int [t1; t2]) = [t1; t2]).
    { rewrite to_int_be_val. apply (be_be_val [t1; t2]). repeat (apply Forall_cons; [assumption|]); apply Forall_nil. }
    assert (HS : be 3 (to_int [s1; s2; s3]) = [s1; s2; s3]).
    { rewrite to_int_be_val. apply (be_be_val [s1; s2; s3]). repeat (apply Forall_cons; [assumption|]); apply Forall_nil. }
    assert (HD : be 3 (to_int [d1; d2; d3]) = [d1; d2; d3]).
    { rewrite to_int_be_val. apply (be_be_val [d1; d2; d3]). repeat (apply Forall_cons; [assumption|]); apply Forall_nil. }
    assert (BT : to_int [t1; t2] mod 2 ^ 16 = to_int [t1; t2]).
    { apply Z.mod_small. rewrite to_int_be_val. apply (be_val_bound [t1; t2]). repeat (apply Forall_cons; [assumption|]); apply Forall_nil. }
    assert (BS : to_int [s1; s2; s3] mod 2 ^ 24 = to_int [s1; s2; s3]).
    { apply Z.mod_small. rewrite to_int_be_val. apply (be_val_bound [s1; s2; s3]). repeat (apply Forall_cons; [assumption|]); apply Forall_nil. }
    assert (BD : to_int [d1; d2; d3] mod 2 ^ 24 = to_int [d1; d2; d3]).
    { apply Z.mod_small. rewrite to_int_be_val. apply (be_val_bound [d1; d2; d3]). repeat (apply Forall_cons; [assumption|]); apply Forall_nil. }
    match goal with H : Forall byte_ok body |- _ => rename H into Hbody end.
    match goal with H : byte_ok esv |- _ => rename H into Hesv end.
    remember (to_int [t1; t2]) as T. remember (to_int [s1; s2; s3]) as S.
    remember (to_int [d1; d2; d3]) as D.
    unfold body_parse in E. destruct (two_blocks esv) eqn:Etb.
    + destruct (sp_block body) as [[s ps]|e] eqn:E1; [|discriminate].
      destruct (sp_block s) as [[s' qs]|e] eqn:E2; [|discriminate].
      injection E as <-.
      apply sp_block_inv in E1; [|assumption]. destruct E1 as (-> & F1 & D1).
      apply Forall_app in Hbody. destruct Hbody as [_ Hs].
      apply sp_block_inv in E2; [|assumption]. destruct E2 as (-> & F2 & D2).
      split.
      * unfold frame_msg, encodable, typed, carried. cbn [m_TID m_SEOJ m_DEOJ m_ESV m_props m_sets m_gets m_from m_to set_props set_gets set_sets set_ESV set_DEOJ set_SEOJ set_TID new_msg].
        rewrite Etb. split; [|split].
        -- tauto.
        -- repeat split; auto.
        -- now rewrite BT, BS, BD.
      * exists s'. unfold wire, wire_header, wire_body. cbn [m_TID m_SEOJ m_DEOJ m_ESV m_props m_sets m_gets
          set_gets set_sets set_ESV set_DEOJ set_SEOJ set_TID].
        rewrite Etb, HT, HS, HD. cbn [app]. rewrite <- !app_assoc. reflexivity.
    + destruct (sp_block body) as [[s ps]|e] eqn:E1; [|discriminate].
      injection E as <-.
      apply sp_block_inv in E1; [|assumption]. destruct E1 as (-> & F1 & D1).
      split.
      * unfold frame_msg, encodable, typed, carried. cbn [m_TID m_SEOJ m_DEOJ m_ESV m_props m_sets m_gets m_from m_to set_props set_gets set_sets set_ESV set_DEOJ set_SEOJ set_TID new_msg].
        rewrite Etb. split; [|split].
        -- tauto.
        -- repeat split; auto.
        -- now rewrite BT, BS, BD.
      * exists s. unfold wire, wire_header, wire_body. cbn [m_TID m_SEOJ m_DEOJ m_ESV m_props m_sets m_gets
          set_props set_ESV set_DEOJ set_SEOJ set_TID].
        rewrite Etb, HT, HS, HD. cbn [app]. reflexivity.
Qed.

Lemma parse_new_iff b m : bytes_ok b ->
  (parse_bytes new_msg b = (m, Ok true) <-> denotes b m).
Proof.
  intros Hb. split; [now apply parse_new_inv|].
  intros ((He & Ht & Hc) & tail & ->). rewrite parse_wire, overlay_new, Hc. reflexivity.
Qed.

Lemma sp_block_mono_msg : forall m b r, parse_bytes m b = r -> forall x, snd r = Ok x -> x = true.
Proof.
  intros m b r <- x.
  destruct (header_cases b) as [H|[(a0 & r & -> & H)|[(a0 & a1 & r & -> & H)|[(r & -> & H)|
    (t1 & t2 & s1 & s2 & s3 & d1 & d2 & d3 & esv & body & ->)]]]].
  - rewrite parse_bytes_short by assumption. discriminate.
  - rewrite parse_bytes_bad0 by assumption. discriminate.
  - rewrite parse_bytes_bad1 by assumption. discriminate.
  - rewrite parse_bytes_mid by assumption. discriminate.
  - rewrite parse_bytes_header. unfold body_parse.
    destruct (two_blocks esv); destruct (sp_block body) as [[s ps]|e]; try discriminate.
    + destruct (sp_block s) as [[s' qs]|e]; [cbn; congruence|discriminate].
    + cbn; congruence.
Qed.

(** The outcome (not the message) does not depend on the message object parsed into. *)
Lemma parse_outcome_indep m0 m1 b : snd (parse_bytes m0 b) = snd (parse_bytes m1 b).
Proof.
  destruct (header_cases b) as [H|[(a0 & r & -> & H)|[(a0 & a1 & r & -> & H)|[(r & -> & H)|
    (t1 & t2 & s1 & s2 & s3 & d1 & d2 & d3 & esv & body & ->)]]]].
  - rewrite !parse_bytes_short by assumption. reflexivity.
  - rewrite !parse_bytes_bad0 by assumption. reflexivity.
  - rewrite !parse_bytes_bad1 by assumption. reflexivity.
  - rewrite !parse_bytes_mid by assumption. reflexivity.
  - rewrite !parse_bytes_header. unfold body_parse.
    destruct (two_blocks esv); destruct (sp_block body) as [[s ps]|e]; try reflexivity.
    destruct (sp_block s) as [[s' qs]|e]; reflexivity.
Qed.

Lemma parse_any_inv m0 b m : bytes_ok b -> parse_bytes m0 b = (m, Ok true) ->
  exists c, denotes b c /\ m = overlay m0 c.
Proof.
  intros Hb E. pose proof (parse_outcome_indep m0 new_msg b) as O. rewrite E in O. cbn [snd] in O.
  destruct (parse_bytes new_msg b) as [c o] eqn:Ec. cbn [snd] in O. subst o.
  apply parse_new_inv in Ec; [|assumption]. exists c. split; [assumption|].
  destruct Ec as (_ & tail & ->). rewrite parse_wire in E. congruence.
Qed.

Lemma parse_exn m b e : snd (parse_bytes m b) = Err e -> e = ParserError \/ e = IndexError.
Proof.
  destruct (header_cases b) as [H|[(a0 & r & -> & H)|[(a0 & a1 & r & -> & H)|[(r & -> & H)|
    (t1 & t2 & s1 & s2 & s3 & d1 & d2 & d3 & esv & body & ->)]]]].
  - rewrite parse_bytes_short by assumption. intros [= <-]; tauto.
  - rewrite parse_bytes_bad0 by assumption. intros [= <-]; tauto.
  - rewrite parse_bytes_bad1 by assumption. intros [= <-]; tauto.
  - rewrite parse_bytes_mid by assumption. intros [= <-]; tauto.
  - rewrite parse_bytes_header. unfold body_parse.
    destruct (two_blocks esv); destruct (sp_block body) as [[s ps]|e'] eqn:E1; try discriminate;
      try (intros [= <-]; eapply sp_block_exn; eassumption).
    destruct (sp_block s) as [[s' qs]|e'] eqn:E2; [discriminate|].
    intros [= <-]; eapply sp_block_exn; eassumption.
Qed.

Lemma sp_block_index_unique s s' ps : sp_block s = Ok (s', ps) -> ~ (sp_block s = Err IndexError).
Proof. intros -> H. discriminate. Qed.

Lemma parse_index_iff m b : bytes_ok b ->
  (snd (parse_bytes m b) = Err IndexError <-> index_cut b).
Proof.
  intros Hb.
  destruct (header_cases b) as [H|[(a0 & r & -> & H)|[(a0 & a1 & r & -> & H)|[(r & -> & H)|
    (t1 & t2 & s1 & s2 & s3 & d1 & d2 & d3 & esv & body & ->)]]]].
  - rewrite parse_bytes_short by assumption. split; [discriminate|].
    intros (r & -> & [L|(h & e & bd & -> & L & _)]); exfalso; unfold zlen in L;
      repeat rewrite ?app_length in H; cbn [length app] in H; lia.
  - rewrite parse_bytes_bad0 by assumption. split; [discriminate|].
    intros (r' & E & _). cbn [app] in E. congruence.
  - rewrite parse_bytes_bad1 by assumption. split; [discriminate|].
    intros (r' & E & _). cbn [app] in E. congruence.
  - rewrite parse_bytes_mid by assumption. split; [intros _|reflexivity].
    exists r. split; [reflexivity|]. left. unfold zlen. lia.
  - assert (Hbody : bytes_ok body).
    { unfold bytes_ok in *. do 11 (apply Forall_inv_tail in Hb). exact Hb. }
    rewrite parse_bytes_header. unfold body_parse.
    set (h8 := [t1; t2; s1; s2; s3; d1; d2; d3]).
    assert (Hcut : forall X : Prop,
      (X <-> if two_blocks esv then
        body = [] \/ block_cut body \/
        (exists sets, fits_list sets /\
           (body = wire_props sets \/
            exists body2, body = wire_props sets ++ body2 /\ block_cut body2))
        else body = [] \/ block_cut body) ->
      (X <-> index_cut (0x10 :: 0x81 :: t1 :: t2 :: s1 :: s2 :: s3 :: d1 :: d2 :: d3 :: esv :: body))).
    { intros X HX. rewrite HX. clear HX X. unfold index_cut. split.
      - intros Hc. exists (h8 ++ [esv] ++ body). split; [reflexivity|].
        destruct body as [|b0 body'].
        + left. unfold h8, zlen. cbn. lia.
        + right. exists h8, esv, (b0 :: body'). split; [reflexivity|]. split; [reflexivity|].
          destruct (two_blocks esv); destruct Hc as [Hc|Hc]; try discriminate; assumption.
      - intros (r & Er & Hc). cbn [app] in Er. injection Er as <-.
        destruct Hc as [L|(h & e & bd & Eh & Lh & Hc)].
        + assert (body = []) as ->.
          { unfold zlen in L. cbn [length] in L. destruct body; [reflexivity|cbn [length] in L; lia]. }
          destruct (two_blocks esv); tauto.
        + assert (h = h8 /\ e = esv /\ bd = body) as (-> & -> & ->).
          { unfold zlen in Lh. do 8 (destruct h as [|? h]; [cbn [length] in Lh; lia|]).
            destruct h; [|cbn [length] in Lh; lia]. cbn [app] in Eh. unfold h8. 
            repeat split; congruence. }
          destruct (two_blocks esv); tauto. }
    apply Hcut. clear Hcut. destruct (two_blocks esv) eqn:Etb.
    + destruct (sp_block body) as [[s ps]|e'] eqn:E1.
      * assert (Hinv := sp_block_inv _ _ _ Hbody E1). destruct Hinv as (Eb & F & D).
        assert (Hs : bytes_ok s).
        { unfold bytes_ok in *. rewrite Eb in Hbody. apply Forall_app in Hbody. apply Hbody. }
        assert (Hiff : snd (match sp_block s with
          | Ok (_, qs) => (set_gets qs (set_sets ps (set_ESV esv (set_DEOJ (to_int [d1; d2; d3])
                (set_SEOJ (to_int [s1; s2; s3]) (set_TID (to_int [t1; t2]) m))))), Ok true)
          | Err e => (set_sets ps (set_ESV esv (set_DEOJ (to_int [d1; d2; d3])
                (set_SEOJ (to_int [s1; s2; s3]) (set_TID (to_int [t1; t2]) m)))), Err e) end)
          = Err IndexError <-> sp_block s = Err IndexError).
        { destruct (sp_block s) as [[s' qs]|e]; cbn; split; congruence. }
        rewrite Hiff, sp_block_index by assumption. clear Hiff.
        split.
        -- intros [->|Hc].
           ++ do 2 right. exists ps. split; [assumption|]. left. now rewrite Eb, app_nil_r.
           ++ do 2 right. exists ps. split; [assumption|]. right. now exists s.
        -- intros Hc.
           assert (Hn : ~ (body = [] \/ block_cut body)).
           { rewrite <- sp_block_index by assumption. rewrite E1. discriminate. }
           destruct Hc as [Hc|[Hc|(sets & Fs & [Ebs|(body2 & Ebs & Hc)])]]; [tauto|tauto| |].
           ++ left. rewrite Ebs in E1. rewrite <- (app_nil_r (wire_props sets)) in E1.
              rewrite sp_block_wire in E1. congruence.
           ++ right. rewrite Ebs in E1. rewrite sp_block_wire in E1.
              injection E1 as <- <-. assumption.
      * cbn [snd]. assert (Hiff : (@Err bool e' = Err IndexError <-> sp_block body = Err IndexError)).
        { rewrite E1. split; congruence. }
        rewrite Hiff, sp_block_index by assumption. split; [tauto|].
        intros [Hc|[Hc|(sets & Fs & [Ebs|(body2 & Ebs & Hc)])]]; [tauto|tauto| |].
        -- rewrite Ebs, <- (app_nil_r (wire_props sets)), sp_block_wire in E1. discriminate.
        -- rewrite Ebs, sp_block_wire in E1. discriminate.
    + rewrite <- sp_block_index by assumption.
      destruct (sp_block body) as [[s ps]|e']; cbn; split; congruence.
Qed.

(** ** Equality of messages and injectivity of the layout *)

Lemma bytes_eqb_eq a b : bytes_eqb a b = true <-> a = b.
Proof.
  revert b; induction a as [|x a IH]; intros [|y b]; cbn [bytes_eqb]; split; try congruence.
  - rewrite andb_true_iff, Z.eqb_eq, IH. intros [-> ->]. reflexivity.
  - intros [= -> ->]. rewrite Z.eqb_refl. now apply IH.
Qed.

Lemma wire_inj m m' : wire m = wire m' -> carried m = carried m'.
Proof.
  intros E. pose proof (parse_wire new_msg m []) as P. pose proof (parse_wire new_msg m' []) as P'.
  rewrite E in P. rewrite P in P'. exact (f_equal fst P').
Qed.

Lemma two_blocks_carried m : two_blocks (m_ESV (carried m)) = two_blocks (m_ESV m).
Proof. reflexivity. Qed.

Lemma wire_carried m : wire (carried m) = wire m.
Proof.
  unfold wire, wire_header, wire_body. rewrite two_blocks_carried.
  unfold carried at 1 2 3 4. cbn [m_TID m_SEOJ m_DEOJ m_ESV].
  change (2 ^ 16) with (256 ^ Z.of_nat 2). change (2 ^ 24) with (256 ^ Z.of_nat 3).
  rewrite !be_mod. destruct (two_blocks (m_ESV m)) eqn:E; unfold carried; cbn [m_props m_sets m_gets];
    rewrite E; reflexivity.
Qed.

Lemma encodable_carried m : encodable m -> encodable (carried m).
Proof.
  unfold encodable. rewrite two_blocks_carried. unfold carried.
  cbn [m_ESV m_props m_sets m_gets]. destruct (two_blocks (m_ESV m)); tauto.
Qed.

Lemma carried_idem m : carried (carried m) = carried m.
Proof.
  unfold carried. cbn. rewrite !Z.mod_mod by lia. destruct (two_blocks (m_ESV m)); reflexivity.
Qed.

Lemma wire_bytes_ok m : encodable m -> typed m -> bytes_ok (wire m).
Proof.
  intros [He Hb] (T1 & T2 & T3).
  assert (Hprops : forall ps, fits_list ps -> Forall data_ok ps -> bytes_ok (wire_props ps)).
  { intros ps [L F] D. unfold wire_props. constructor.
    - unfold byte_ok. pose proof (zlen_nonneg ps). lia.
    - induction ps as [|p ps IH]; cbn [flat_map]; [constructor|].
      inversion F as [|? ? [Fc Fd] Fps]; subst. inversion D as [|? ? Dp Dps]; subst.
      apply Forall_app. split.
      + constructor; [assumption|]. constructor; [|exact Dp].
        unfold byte_ok. pose proof (zlen_nonneg (p_data p)). lia.
      + apply IH; auto. unfold zlen in *. cbn [length] in L. lia. }
  unfold wire, wire_header, bytes_ok. repeat (apply Forall_app; split);
    try apply be_ok; repeat constructor; try lia; try assumption; try apply He.
  unfold wire_body. destruct (two_blocks (m_ESV m)).
  - destruct Hb. apply Forall_app. split; apply Hprops; assumption.
  - apply Hprops; assumption.
Qed.

Lemma copy_frame m f t : frame_msg m ->
  copy_msg (set_to t (set_from f m)) = Ok (set_to t (set_from f m)).
Proof.
  intros (He & Ht & Hc). unfold copy_msg.
  assert (He' : encodable (set_to t (set_from f m))) by exact He.
  rewrite (to_bytes_ok _ He'). cbn [bindr].
  replace (wire (set_to t (set_from f m))) with (wire m ++ []) by (rewrite app_nil_r; reflexivity).
  rewrite parse_wire, overlay_new, Hc. reflexivity.
Qed.
