(** Lemmas for repeated parsing (C07, C08). *)
From Verif Require Import PyBase BytesM EsvM MsgM SpecWire SpecParse BytesP WireP CodecP.
Local Open Scope nat_scope.

Definition said {A} (says : list Z -> A -> Prop) (b : list Z) (x0 x : A) : Prop :=
  says b x \/ ((forall y, ~ says b y) /\ x = x0).
Definition step_said (b : list Z) (m m' : msg) : Prop :=
  said says_tid b (m_TID m) (m_TID m') /\ said says_seoj b (m_SEOJ m) (m_SEOJ m') /\ said says_deoj b (m_DEOJ m) (m_DEOJ m') /\
  said says_esv b (m_ESV m) (m_ESV m') /\ said says_props b (m_props m) (m_props m') /\ said says_sets b (m_sets m) (m_sets m') /\
  said says_gets b (m_gets m) (m_gets m') /\ m_from m' = m_from m /\ m_to m' = m_to m.

Lemma headed_inj h h' : headed ([0x10; 0x81]%Z ++ h) h' -> h' = h.
Proof. intros (E & _). apply app_inv_head in E. now symmetry. Qed.
Lemma not_headed b m : (forall h, ~ headed b h) -> step_said b m m.
Proof.
  intros N. unfold step_said. do 7 (split; [right; split; [|reflexivity]; intros y H; repeat (destruct H as (? & H)); eapply N; try exact H; eassumption|]).
  split; reflexivity.
Qed.
Lemma bytes_app_r a b : bytes_ok (a ++ b) -> bytes_ok b.
Proof. unfold bytes_ok. rewrite Forall_app. tauto. Qed.

Lemma short_step m h : length h = 6 \/ length h = 7 \/ length h = 8 ->
  parse_bytes m ([0x10; 0x81]%Z ++ h) =
  (set_DEOJ (be_val (firstn 3 (skipn 5 h))) (set_SEOJ (be_val (firstn 3 (skipn 2 h))) (set_TID (be_val (firstn 2 h)) m)), Err IndexError).
Proof.
  intros L. rewrite <- !to_int_be_val.
  destruct h as [|t1 [|t2 [|s1 [|s2 [|s3 [|d1 [|d2 [|d3 [|e h]]]]]]]]]; cbn [length] in L; try lia; reflexivity.
Qed.
Lemma step_parse m b : bytes_ok b -> step_said b m (fst (parse_bytes m b)).
Proof.
  intros B.
  assert (D : (exists h, headed b h) \/ (forall h, ~ headed b h)).
  { destruct b as [|b0 [|b1 h]]; [right; intros h (E & _); discriminate|right; intros h (E & _); discriminate|].
    destruct (Z.eq_dec b0 0x10) as [->|N]; [|right; intros k (E & _); injection E as E _ _; congruence].
    destruct (Z.eq_dec b1 0x81) as [->|N]; [|right; intros k (E & _); injection E as E _; congruence].
    destruct (Z_le_dec 6 (zlen h)) as [L|L]; [left; exists h; split; [reflexivity|exact L]|].
    right. intros k (E & K). injection E as E. subst k. auto. }
  destruct D as [(h & E & L)|N].
  2:{ assert (E : fst (parse_bytes m b) = m); [|rewrite E; now apply not_headed].
      unfold parse_bytes. destruct (length b <? FORMAT1_HEADER_SIZE)%nat eqn:LE; [reflexivity|]. apply Nat.ltb_ge in LE. unfold FORMAT1_HEADER_SIZE in LE.
      destruct b as [|b0 [|b1 h]]; cbn [length] in LE; [lia|lia|].
      change (py_index (b0 :: b1 :: h) 0) with (Ok (A:=Z) b0). change (py_index (b0 :: b1 :: h) 1) with (Ok (A:=Z) b1). cbv beta iota zeta.
      unfold EHD1_ECHONET, EHD2_FORMAT1. destruct (Z.eqb_spec b0 0x10) as [->|]; cbn [negb]; [|reflexivity]. destruct (Z.eqb_spec b1 0x81) as [->|]; cbn [negb]; [|reflexivity].
      exfalso. apply (N h). split; [reflexivity|]. unfold zlen. lia. }
  subst b. assert (Hh : headed ([0x10; 0x81]%Z ++ h) h) by (split; [reflexivity|exact L]). unfold zlen in L.
  destruct (le_lt_dec 9 (length h)) as [G|G].
  - destruct h as [|t1 [|t2 [|s1 [|s2 [|s3 [|d1 [|d2 [|d3 [|e body]]]]]]]]]; cbn [length] in G; try lia. clear L G.
    cbn [app] in B |- *. rewrite parse_bytes_header. rewrite !to_int_be_val. 
    assert (Bb : bytes_ok body) by (apply (bytes_app_r [16; 129; t1; t2; s1; s2; s3; d1; d2; d3; e]%Z); exact B).
    set (b := (16 :: 129 :: t1 :: t2 :: s1 :: s2 :: s3 :: d1 :: d2 :: d3 :: e :: body)%Z) in *.
    set (h := t1 :: t2 :: s1 :: s2 :: s3 :: d1 :: d2 :: d3 :: e :: body) in *.
    set (m4 := set_ESV e _).
    assert (HJ : forall h', headed b h' -> h' = h) by (intros h' X; exact (headed_inj h h' X)).
    assert (NE : forall h' e', headed b h' -> nth_error h' 8 = Some e' -> e' = e) by (intros h' e' X Y; rewrite (HJ _ X) in Y; injection Y as Y; congruence).
    assert (SB : forall h', headed b h' -> skipn 9 h' = body) by (intros h' X; rewrite (HJ _ X); reflexivity).
    assert (W1 : says_tid b (m_TID m4)) by (exists h; split; [exact Hh|reflexivity]).
    assert (W2 : says_seoj b (m_SEOJ m4)) by (exists h; split; [exact Hh|reflexivity]).
    assert (W3 : says_deoj b (m_DEOJ m4)) by (exists h; split; [exact Hh|reflexivity]).
    assert (W4 : says_esv b (m_ESV m4)) by (exists h; split; [exact Hh|reflexivity]).
    unfold body_parse. destruct (two_blocks e) eqn:T.
    + assert (NP : forall y, ~ says_props b y) by (intros y (h' & e' & r & X & Y & Z1 & _); rewrite (NE _ _ X Y) in Z1; congruence).
      destruct (sp_block body) as [[s ps]|x] eqn:E1.
      * destruct (sp_block_inv _ _ _ Bb E1) as (Q1 & _ & _).
        assert (W5 : says_sets b ps) by (exists h, e, s; split; [exact Hh|]; split; [reflexivity|]; split; [exact T|exact Q1]).
        assert (Bs : bytes_ok s) by (apply (bytes_app_r (wire_props ps)); rewrite <- Q1; exact Bb).
        destruct (sp_block s) as [[s' qs]|x] eqn:E2; cbn [fst].
        -- destruct (sp_block_inv _ _ _ Bs E2) as (Q2 & _ & _).
           assert (W6 : says_gets b qs) by (exists h, e, ps, s'; split; [exact Hh|]; split; [reflexivity|]; split; [exact T|]; rewrite <- Q2; exact Q1).
           unfold step_said. do 4 (split; [left; assumption|]). split; [right; split; [exact NP|reflexivity]|]. do 2 (split; [left; assumption|]). split; reflexivity.
        -- assert (NG : forall y, ~ says_gets b y).
           { intros y (h' & e' & ps' & r & X & Y & Z1 & Z2). rewrite (SB _ X) in Z2. rewrite Z2, sp_block_wire in E1. assert (Qs : s = wire_props y ++ r) by congruence. rewrite Qs, sp_block_wire in E2. discriminate. }
           unfold step_said. do 4 (split; [left; assumption|]). split; [right; split; [exact NP|reflexivity]|]. split; [left; assumption|]. split; [right; split; [exact NG|reflexivity]|]. split; reflexivity.
      * assert (NS : forall y, ~ says_sets b y).
        { intros y (h' & e' & r & X & Y & Z1 & Z2). rewrite (SB _ X) in Z2. rewrite Z2, sp_block_wire in E1. discriminate. }
        assert (NG : forall y, ~ says_gets b y).
        { intros y (h' & e' & ps' & r & X & Y & Z1 & Z2). rewrite (SB _ X) in Z2. rewrite Z2, sp_block_wire in E1. discriminate. }
        cbn [fst]. unfold step_said. do 4 (split; [left; assumption|]). do 3 (split; [right; split; [assumption|reflexivity]|]). split; reflexivity.
    + assert (NS : forall y, ~ says_sets b y) by (intros y (h' & e' & r & X & Y & Z1 & _); rewrite (NE _ _ X Y) in Z1; congruence).
      assert (NG : forall y, ~ says_gets b y) by (intros y (h' & e' & ps & r & X & Y & Z1 & _); rewrite (NE _ _ X Y) in Z1; congruence).
      destruct (sp_block body) as [[s ps]|x] eqn:E1; cbn [fst].
      * destruct (sp_block_inv _ _ _ Bb E1) as (Q1 & _ & _).
        assert (W5 : says_props b ps) by (exists h, e, s; split; [exact Hh|]; split; [reflexivity|]; split; [exact T|exact Q1]).
        unfold step_said. do 5 (split; [left; assumption|]). do 2 (split; [right; split; [assumption|reflexivity]|]). split; reflexivity.
      * assert (NP : forall y, ~ says_props b y).
        { intros y (h' & e' & r & X & Y & Z1 & Z2). rewrite (SB _ X) in Z2. rewrite Z2, sp_block_wire in E1. discriminate. }
        unfold step_said. do 4 (split; [left; assumption|]). do 3 (split; [right; split; [assumption|reflexivity]|]). split; reflexivity.
  - rewrite short_step by lia. cbn [fst].
    assert (N8 : forall h' e', headed ([0x10; 0x81]%Z ++ h) h' -> nth_error h' 8 <> Some e').
    { intros h' e' X. rewrite (headed_inj _ _ X). intros Y. assert (8 < length h) by (apply nth_error_Some; congruence). lia. }
    unfold step_said. do 3 (split; [left; exists h; split; [exact Hh|reflexivity]|]).
    split; [right; split; [intros y (h' & X & Y); exact (N8 _ _ X Y)|reflexivity]|].
    split; [right; split; [intros y (h' & e' & r & X & Y & _); exact (N8 _ _ X Y)|reflexivity]|].
    split; [right; split; [intros y (h' & e' & r & X & Y & _); exact (N8 _ _ X Y)|reflexivity]|].
    split; [right; split; [intros y (h' & e' & ps & r & X & Y & _); exact (N8 _ _ X Y)|reflexivity]|]. split; reflexivity.
Qed.

Lemma said_last {A} (says : list Z -> A -> Prop) bs b x0 x1 x : last_said says bs x0 x1 -> said says b x1 x -> last_said says (bs ++ [b]) x0 x.
Proof.
  intros H1 [S|(N & ->)].
  - left. exists bs, b, []. split; [reflexivity|]. split; [exact S|intros b' y []].
  - destruct H1 as [(pre & c & post & -> & C & P)|(P & ->)].
    + left. exists pre, c, (post ++ [b]). split; [now rewrite <- app_assoc|]. split; [exact C|]. intros b' y I. apply in_app_iff in I. destruct I as [I|[<-|[]]]; [now apply P|apply N].
    + right. split; [|reflexivity]. intros b' y I. apply in_app_iff in I. destruct I as [I|[<-|[]]]; [now apply P|apply N].
Qed.
Lemma L_C110_last_said : forall bs m0, Forall bytes_ok bs ->
  let m := fold_left (fun m b => fst (parse_bytes m b)) bs m0 in
  last_said says_tid bs (m_TID m0) (m_TID m) /\ last_said says_seoj bs (m_SEOJ m0) (m_SEOJ m) /\
  last_said says_deoj bs (m_DEOJ m0) (m_DEOJ m) /\ last_said says_esv bs (m_ESV m0) (m_ESV m) /\
  last_said says_props bs (m_props m0) (m_props m) /\ last_said says_sets bs (m_sets m0) (m_sets m) /\
  last_said says_gets bs (m_gets m0) (m_gets m) /\ m_from m = m_from m0 /\ m_to m = m_to m0.
Proof.
  intros bs m0. induction bs as [|b bs IH] using rev_ind; intros F.
  - cbn zeta. cbn [fold_left]. do 7 (split; [right; split; [intros b y []|reflexivity]|]). split; reflexivity.
  - apply Forall_app in F. destruct F as (F & Fb). cbv zeta in *. rewrite fold_left_app. cbn [fold_left].
    set (m := fold_left _ bs m0) in *. destruct (IH F) as (A1 & A2 & A3 & A4 & A5 & A6 & A7 & A8 & A9).
    destruct (step_parse m b (Forall_inv Fb)) as (S1 & S2 & S3 & S4 & S5 & S6 & S7 & S8 & S9).
    do 7 (split; [eapply said_last; eassumption|]). split; congruence.
Qed.
(** A parse that fails. *)
Lemma L_C110_failed : forall b m m' e, bytes_ok b -> parse_bytes m b = (m', Err e) ->
  ((forall h, ~ headed b h) -> m' = m) /\
  (forall h, headed b h -> m_TID m' = be_val (firstn 2 h) /\ m_SEOJ m' = be_val (firstn 3 (skipn 2 h)) /\ m_DEOJ m' = be_val (firstn 3 (skipn 5 h)) /\
     m_ESV m' = match nth_error h 8 with Some x => x | None => m_ESV m end) /\
  m_props m' = m_props m /\ m_gets m' = m_gets m.
Proof.
  intros b m m' e B E. pose proof (step_parse m b B) as S. rewrite E in S. cbn [fst] in S. destruct S as (S1 & S2 & S3 & S4 & S5 & S6 & S7 & S8 & S9).
  split; [|split].
  - intros N.
    assert (K1 : m_TID m' = m_TID m) by (destruct S1 as [(h & X & _)|(_ & X)]; [destruct (N _ X)|exact X]).
    assert (K2 : m_SEOJ m' = m_SEOJ m) by (destruct S2 as [(h & X & _)|(_ & X)]; [destruct (N _ X)|exact X]).
    assert (K3 : m_DEOJ m' = m_DEOJ m) by (destruct S3 as [(h & X & _)|(_ & X)]; [destruct (N _ X)|exact X]).
    assert (K4 : m_ESV m' = m_ESV m) by (destruct S4 as [(h & X & _)|(_ & X)]; [destruct (N _ X)|exact X]).
    assert (K5 : m_props m' = m_props m) by (destruct S5 as [(h & x & r & X & _)|(_ & X)]; [destruct (N _ X)|exact X]).
    assert (K6 : m_sets m' = m_sets m) by (destruct S6 as [(h & x & r & X & _)|(_ & X)]; [destruct (N _ X)|exact X]).
    assert (K7 : m_gets m' = m_gets m) by (destruct S7 as [(h & x & p & r & X & _)|(_ & X)]; [destruct (N _ X)|exact X]).
    destruct m, m'; cbn in *; congruence.
  - intros h H. assert (HJ : forall h', headed b h' -> h' = h) by (destruct H as (-> & _); intros h' X; exact (headed_inj h h' X)).
    split; [destruct S1 as [(h' & X & Y)|(X & _)]; [rewrite (HJ _ X) in Y; exact Y|destruct (X _ (ex_intro _ h (conj H eq_refl)))]|].
    split; [destruct S2 as [(h' & X & Y)|(X & _)]; [rewrite (HJ _ X) in Y; exact Y|destruct (X _ (ex_intro _ h (conj H eq_refl)))]|].
    split; [destruct S3 as [(h' & X & Y)|(X & _)]; [rewrite (HJ _ X) in Y; exact Y|destruct (X _ (ex_intro _ h (conj H eq_refl)))]|].
    destruct S4 as [(h' & X & Y)|(X & Y)]; [rewrite (HJ _ X) in Y; rewrite Y; reflexivity|].
    destruct (nth_error h 8) as [x|] eqn:N8; [destruct (X x (ex_intro _ h (conj H N8)))|exact Y].
  - assert (D : (exists h, b = [0x10; 0x81]%Z ++ h /\ 9 <= length h) \/ (forall y, ~ says_props b y) /\ (forall y, ~ says_gets b y)).
    { destruct (le_lt_dec 11 (length b)) as [L|L].
      - destruct b as [|b0 [|b1 h]]; cbn [length] in L; try lia. destruct (Z.eq_dec b0 0x10) as [->|N0]; [destruct (Z.eq_dec b1 0x81) as [->|N1]|].
        + left. exists h. split; [reflexivity|lia].
        + right. split; intros y P; repeat (destruct P as (? & P)); match goal with X : headed _ _ |- _ => destruct X as (X & _); injection X as X _; congruence end.
        + right. split; intros y P; repeat (destruct P as (? & P)); match goal with X : headed _ _ |- _ => destruct X as (X & _); injection X as X _ _; congruence end.
      - right. split; intros y P; repeat (destruct P as (? & P)); match goal with X : headed _ ?k, Y : nth_error ?k 8 = Some _ |- _ =>
          destruct X as (-> & _); assert (8 < length k) by (apply nth_error_Some; congruence) end; cbn [app length] in L; lia. }
    destruct D as [(h & -> & L)|(N1 & N2)].
    2:{ split; [destruct S5 as [X|(_ & X)]; [destruct (N1 _ X)|exact X]|destruct S7 as [X|(_ & X)]; [destruct (N2 _ X)|exact X]]. }
    clear - E L. destruct h as [|t1 [|t2 [|s1 [|s2 [|s3 [|d1 [|d2 [|d3 [|x body]]]]]]]]]; cbn [length] in L; try lia.
    cbn [app] in E. rewrite parse_bytes_header in E. unfold body_parse in E.
    destruct (two_blocks x); destruct (sp_block body) as [[s ps]|y]; try destruct (sp_block s) as [[s' qs]|y]; try discriminate; injection E as <- _; split; reflexivity.
Qed.
(** Finding: a message that could not be parsed has parts of it. *)
Lemma L_C110_half_refuted : exists b m m', bytes_ok b /\ parse_bytes m b = (m', Err ParserError) /\ frame_msg m /\ frame_msg m' /\ m' <> m /\
  to_bytes m' <> to_bytes m.
Proof.
  exists [16; 129; 0; 9; 5; 255; 1; 2; 145; 1; 0x61; 2; 0x80; 1; 0x31]%Z, (mkmsg 1 0x0EF001 0x0EF001 0x62 [mkprop 0xD6 []] [] [] None None),
    (mkmsg 9 0x05FF01 0x029101 0x61 [mkprop 0xD6 []] [] [] None None).
  split; [repeat constructor; unfold byte_ok; lia|]. split; [vm_compute; reflexivity|].
  assert (FM : forall t s d e, byte_ok e -> two_blocks e = false -> (t mod 2 ^ 16 = t)%Z -> (s mod 2 ^ 24 = s)%Z -> (d mod 2 ^ 24 = d)%Z ->
    frame_msg (mkmsg t s d e [mkprop 0xD6 []] [] [] None None)).
  { intros t s d e Be T H1 H2 H3. split; [split; [exact Be|cbn [m_ESV m_props]; rewrite T; split; [unfold zlen; cbn; lia|repeat constructor; unfold byte_ok, zlen; cbn; lia]]|].
    split; [repeat split; repeat constructor|]. unfold carried. cbn [m_TID m_SEOJ m_DEOJ m_ESV m_props m_sets m_gets]. rewrite T, H1, H2, H3. reflexivity. }
  split; [apply FM; [unfold byte_ok; lia|reflexivity..]|]. split; [apply FM; [unfold byte_ok; lia|reflexivity..]|].
  split; [discriminate|]. vm_compute. discriminate.
Qed.

(** What remains true: fresh messages and frames with the same blocks. *)
Definition clean (two : bool) (m : msg) : Prop :=
  m_from m = None /\ m_to m = None /\ if two then m_props m = [] else m_sets m = [] /\ m_gets m = [].
Lemma unheaded_parse b m : bytes_ok b -> (forall h, ~ headed b h) -> fst (parse_bytes m b) = m /\ exists e, snd (parse_bytes m b) = Err e.
Proof.
  intros B N. pose proof (step_parse m b B) as S. destruct (parse_bytes m b) as [m' r] eqn:E. cbn [fst snd] in *.
  destruct r as [x|e].
  - exfalso. destruct S as (_ & _ & _ & _ & _ & _ & _ & _ & _). assert (x = true) by (destruct x; [reflexivity|]; exact (sp_block_mono_msg _ _ _ E false eq_refl)). subst x.
    destruct (L_C08_reparse_partial b m m' B E) as (c & (FC & tl & ->) & _).
    apply (N (be 2 (m_TID c) ++ be 3 (m_SEOJ c) ++ be 3 (m_DEOJ c) ++ [m_ESV c] ++ wire_body c ++ tl)%Z).
    split; [unfold wire, wire_header; rewrite <- !app_assoc; reflexivity|]. unfold zlen. cbn [be app length]. lia.
  - split; [|eauto]. exact (proj1 (L_C110_failed b m m' e B E) N).
Qed.
Lemma frame_parse b m c two : bytes_ok b -> denotes b c -> two_blocks (m_ESV c) = two -> clean two m -> parse_bytes m b = (c, Ok true) /\ clean two c.
Proof.
  intros B D T (C1 & C2 & C3). destruct (parse_bytes m b) as [m' r] eqn:E.
  pose proof (proj2 (parse_new_iff _ _ B) D) as P.
  destruct D as (FC & tl & Q). assert (FC' := FC). destruct FC' as (He & Ht & Hc).
  assert (RT : r = Ok true).
  { rewrite Q in E. unfold wire, wire_header in E. rewrite <- !app_assoc in E. cbn [app be] in E. rewrite parse_bytes_header in E. unfold body_parse in E.
    unfold wire_body in E. destruct (two_blocks (m_ESV c)).
    - rewrite <- app_assoc, sp_block_wire, sp_block_wire in E. congruence.
    - rewrite sp_block_wire in E. congruence. }
  subst r. destruct (L_C08_reparse_partial b m m' B E) as (c' & D' & H1 & H2 & H3 & H4 & H5 & _).
  pose proof (proj2 (parse_new_iff _ _ B) D') as P'. rewrite P in P'. injection P' as <-.
  pose proof (step_parse m b B) as S. rewrite E in S. cbn [fst] in S. destruct S as (_ & _ & _ & _ & _ & _ & _ & S8 & S9).
  assert (K : m_from c = None /\ m_to c = None) by (rewrite <- Hc; split; reflexivity). destruct K as (K1 & K2).
  assert (CL : if two then m_props c = [] else m_sets c = [] /\ m_gets c = []).
  { rewrite <- Hc. unfold carried. cbn [m_props m_sets m_gets]. rewrite T. destruct two; [reflexivity|split; reflexivity]. }
  split; [|exact (conj K1 (conj K2 CL))]. f_equal. rewrite T in H5.
  assert (M : m_props m' = m_props c /\ m_sets m' = m_sets c /\ m_gets m' = m_gets c).
  { destruct two; [destruct H5 as (X & Y & Z1); split; [congruence|split; assumption]|destruct H5 as (X & Y & Z1); destruct C3, CL; split; [exact X|split; congruence]]. }
  destruct M as (M1 & M2 & M3). destruct c, m'; cbn in *; congruence.
Qed.
Lemma L_C110_same_blocks_partial : forall two bs b c rest, Forall bytes_ok (bs ++ b :: rest) ->
  (forall x, In x bs -> (forall h, ~ headed x h) \/ exists c', denotes x c' /\ two_blocks (m_ESV c') = two) ->
  denotes b c -> two_blocks (m_ESV c) = two -> (forall x h, In x rest -> ~ headed x h) ->
  fold_left (fun m x => fst (parse_bytes m x)) (bs ++ b :: rest) new_msg = c.
Proof.
  intros two bs b c rest F H D T R. rewrite fold_left_app. cbn [fold_left]. apply Forall_app in F. destruct F as (F1 & F2).
  pose proof (Forall_inv F2) as Bb. pose proof (Forall_inv_tail F2) as Fr.
  assert (I : clean two (fold_left (fun m x => fst (parse_bytes m x)) bs new_msg)).
  { assert (I0 : clean two new_msg) by (split; [reflexivity|]; split; [reflexivity|]; destruct two; [reflexivity|split; reflexivity]).
    revert I0. generalize new_msg. clear - F1 H. induction bs as [|x bs IH]; intros m I0; cbn [fold_left]; [exact I0|].
    apply (IH (Forall_inv_tail F1)); [intros y Y; apply H; now right|].
    destruct (H x (or_introl eq_refl)) as [N|(c' & D & T)].
    - rewrite (proj1 (unheaded_parse x m (Forall_inv F1) N)). exact I0.
    - destruct (frame_parse x m c' two (Forall_inv F1) D T I0) as (E & C). rewrite E. exact C. }
  destruct (frame_parse b _ c two Bb D T I) as (E & _). rewrite E. cbn [fst]. clear - R Fr. induction rest as [|x r IH]; cbn [fold_left]; [reflexivity|].
  rewrite (proj1 (unheaded_parse x c (Forall_inv Fr) (fun h => R x h (or_introl eq_refl)))). apply IH; [intros y h Y; exact (R y h (or_intror Y))|exact (Forall_inv_tail Fr)].
Qed.
