(** Property C110: a message into which several byte strings are parsed. *)
From Verif Require Import PyBase MsgM SpecWire SpecParse ParseP.
Local Open Scope Z_scope.

(** C110: after any strings, frames or not, each field is what the last string says that says anything about it. *)
Theorem C110_last_said : forall bs m0, Forall bytes_ok bs ->
  let m := fold_left (fun m b => fst (parse_bytes m b)) bs m0 in
  last_said says_tid bs (m_TID m0) (m_TID m) /\ last_said says_seoj bs (m_SEOJ m0) (m_SEOJ m) /\
  last_said says_deoj bs (m_DEOJ m0) (m_DEOJ m) /\ last_said says_esv bs (m_ESV m0) (m_ESV m) /\
  last_said says_props bs (m_props m0) (m_props m) /\ last_said says_sets bs (m_sets m0) (m_sets m) /\
  last_said says_gets bs (m_gets m0) (m_gets m) /\ m_from m = m_from m0 /\ m_to m = m_to m0.
Proof. exact L_C110_last_said. Qed.
Print Assumptions C110_last_said.
(** C110: what a failed parse changes. *)
Theorem C110_failed : forall b m m' e, bytes_ok b -> parse_bytes m b = (m', Err e) ->
  ((forall h, ~ headed b h) -> m' = m) /\
  (forall h, headed b h -> m_TID m' = be_val (firstn 2 h) /\ m_SEOJ m' = be_val (firstn 3 (skipn 2 h)) /\ m_DEOJ m' = be_val (firstn 3 (skipn 5 h)) /\
     m_ESV m' = match nth_error h 8 with Some x => x | None => m_ESV m end) /\
  m_props m' = m_props m /\ m_gets m' = m_gets m.
Proof. exact L_C110_failed. Qed.
Print Assumptions C110_failed.
(** C110: finding.  A string that is no frame changes the message, which can then be sent. *)
Theorem C110_half_refuted : exists b m m', bytes_ok b /\ parse_bytes m b = (m', Err ParserError) /\ frame_msg m /\ frame_msg m' /\ m' <> m /\
  to_bytes m' <> to_bytes m.
Proof. exact L_C110_half_refuted. Qed.
Print Assumptions C110_half_refuted.
(** C110: frames with the same blocks, and strings without the header, leave a new message with the last frame. *)
Theorem C110_same_blocks_partial : forall two bs b c rest, Forall bytes_ok (bs ++ b :: rest) ->
  (forall x, In x bs -> (forall h, ~ headed x h) \/ exists c', denotes x c' /\ two_blocks (m_ESV c') = two) ->
  denotes b c -> two_blocks (m_ESV c) = two -> (forall x h, In x rest -> ~ headed x h) ->
  fold_left (fun m x => fst (parse_bytes m x)) (bs ++ b :: rest) new_msg = c.
Proof. exact L_C110_same_blocks_partial. Qed.
Print Assumptions C110_same_blocks_partial.

Definition px_a : list Z := [16; 129; 0; 1; 14; 240; 1; 2; 145; 1; 0x6E; 1; 0x80; 1; 0x30; 1; 0xE0; 0].
Definition px_b : list Z := [16; 129; 0; 2; 5; 255; 1; 2; 145; 1; 0x62; 1; 0x88; 0].
(** A frame cut in its second block: the first block and the header are taken. *)
Definition px_cut : list Z := [16; 129; 0; 3; 5; 255; 1; 2; 145; 2; 0x6E; 1; 0x81; 0; 1; 0xE1].
(** Eight bytes: the destination is the one byte that is left. *)
Definition px_short : list Z := [16; 129; 0; 4; 5; 255; 2; 2].
Example C110_ex : let parse := fold_left (fun m b => fst (parse_bytes m b)) in
  parse [px_a; px_b] new_msg = mkmsg 2 0x05FF01 0x029101 0x62 [mkprop 0x88 []] [mkprop 0x80 [0x30]] [mkprop 0xE0 []] None None /\
  parse [px_a; px_b; px_cut] new_msg = mkmsg 3 0x05FF01 0x029102 0x6E [mkprop 0x88 []] [mkprop 0x81 []] [mkprop 0xE0 []] None None /\
  parse [px_a; px_b; px_cut; px_short] new_msg = mkmsg 4 0x05FF02 2 0x6E [mkprop 0x88 []] [mkprop 0x81 []] [mkprop 0xE0 []] None None /\
  parse [px_a; [1; 2; 3]; px_a; [16; 130; 0; 0; 0; 0; 0; 0; 0]] new_msg = mkmsg 1 0x0EF001 0x029101 0x6E [] [mkprop 0x80 [0x30]] [mkprop 0xE0 []] None None.
Proof. vm_compute. repeat split. Qed.
Example C110_says_ex : says_sets px_cut [mkprop 0x81 []] /\ (forall y, ~ says_gets px_cut y) /\ says_deoj px_short 2 /\ forall y, ~ says_esv px_short y.
Proof.
  split; [exists [0; 3; 5; 255; 1; 2; 145; 2; 0x6E; 1; 0x81; 0; 1; 0xE1], 0x6E, [1; 0xE1]; repeat split; discriminate|].
  split.
  { intros y (h & e & ps & r & (H & _) & E & _ & W). injection H as H. subst h. cbn [skipn] in W.
    destruct ps as [|p [|p2 ps]]; [discriminate| |unfold wire_props, zlen in W; injection W as W _; cbn [length] in W; lia].
    destruct p as [c d]. unfold wire_props at 1 in W. cbn [flat_map wire_prop p_code p_data app] in W. rewrite app_nil_r in W.
    injection W as _ L W. destruct d as [|x d]; [|unfold zlen in L; cbn [length] in L; lia]. cbn [app] in W.
    destruct y as [|q y]; [discriminate|]. unfold wire_props in W. injection W as K W. destruct q as [c' d'], y as [|q2 y]; discriminate. }
  split; [exists [0; 4; 5; 255; 2; 2]; repeat split; discriminate|]. intros y (h & (H & _) & E). injection H as H. subst h. discriminate.
Qed.
