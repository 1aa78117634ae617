(** Property C104: what a handler is asked. *)
From Verif Require Import PyBase MsgM PropM ObjM AskM SpecAsk AskP.

Theorem C104_same : forall h o req, o_handler o = HUser h ->
  let '(o', _, r) := obj_message_received o req in
  let '(s', r') := a_received (counting (o_calls o) h) (mkast (o_props o) []) req in
  r = r' /\ o_props o' = a_props s' /\ o_calls o' = Nat.add (o_calls o) (length (a_asked s')).
Proof. exact L_C104_same. Qed.
Print Assumptions C104_same.
Theorem C104_asked : forall h ps hist ms, keeps_codes h -> by_code ps ->
  exists qss, a_asked (fst (a_run h (mkast ps hist) ms)) = hist ++ concat qss /\
  length (snd (a_run h (mkast ps hist) ms)) = length ms /\
  Forall2 (fun mr qs => prefix_of (map what qs) (questions_asked ps (fst mr)) /\
                        ((exists a, snd mr = Ok a) -> map what qs = questions_asked ps (fst mr)))
    (combine ms (snd (a_run h (mkast ps hist) ms))) qss.
Proof. exact L_C104_asked. Qed.
Print Assumptions C104_asked.
Theorem C104_once_partial : forall h ps hist ms, keeps_codes h -> by_code ps ->
  (forall m, In m ms -> m_ESV m = 0x6E -> forallb (fun mp => has ps (p_code mp)) (m_gets m) = true) ->
  exists qss, a_asked (fst (a_run h (mkast ps hist) ms)) = hist ++ concat qss /\
  length (snd (a_run h (mkast ps hist) ms)) = length ms /\
  Forall2 (fun mr qs => prefix_of (map what qs) (questions_due ps (fst mr)) /\
                        ((exists a, snd mr = Ok a) -> map what qs = questions_due ps (fst mr)))
    (combine ms (snd (a_run h (mkast ps hist) ms))) qss.
Proof. exact L_C104_once_partial. Qed.
Print Assumptions C104_once_partial.
Theorem C104_silent : forall h s m, ~ In (m_ESV m) [0x60; 0x61; 0x62; 0x6E] -> fst (a_received h s m) = s.
Proof. exact L_C104_silent. Qed.
Print Assumptions C104_silent.
Theorem C104_shown : forall h h', (forall hist ps q, shown ps q -> h hist ps q = h' hist ps q) -> forall ms s, a_run h s ms = a_run h' s ms.
Proof. exact L_C104_shown. Qed.
Print Assumptions C104_shown.
Theorem C104_unknown_refuted : forall h ps hist m mp, zget (p_code mp) ps = None -> m_ESV m = 0x6E -> m_sets m = [] -> m_gets m = [mp] ->
  a_asked (fst (a_received h (mkast ps hist) m)) = hist ++ [QRead None] /\ questions_due ps m = [].
Proof. exact L_C104_unknown_refuted. Qed.
Print Assumptions C104_unknown_refuted.
(** A handler that permits the first write of a property and every read, and changes the status when it is read. *)
Definition kx_handler : asker := fun hist ps q =>
  match q with
  | QWrite p _ => (ps, Ok (negb (existsb (fun q' => match q' with QWrite p' _ => op_code p' =? op_code p | _ => false end) hist)))
  | QRead (Some p) => (match zget 0x80 ps with Some o => zset 0x80 (set_op_data [0x42] o) ps | None => ps end, Ok true)
  | QRead None => (ps, Ok false)
  end.
Definition kx_props : props := [(0x80, mkoprop 0x80 [0x30] 1 1 0); (0xB0, mkoprop 0xB0 [1] 1 1 0)].
Definition kx_msgs : list msg :=
  [mkmsg 1 0x05FF01 0x029101 0x61 [mkprop 0x80 [0x31]; mkprop 0x99 [5]; mkprop 0x80 [0x30]] [] [] None None;
   mkmsg 2 0x05FF01 0x029101 0x73 [mkprop 0x80 [0x31]] [] [] None None;
   mkmsg 3 0x05FF01 0x029101 0x6E [] [mkprop 0xB0 [2]] [mkprop 0x80 []; mkprop 0x99 []] None None].
Lemma kx_keeps : keeps_codes kx_handler.
Proof.
  intros hist ps q c. destruct q as [[p|]|p d]; cbn [kx_handler fst]; try reflexivity. destruct (zget 0x80 ps) as [o|] eqn:E; cbn [fst]; [|reflexivity].
  rewrite (DictP.dget_dset Z.eqb DictP.zeqb_eq). destruct (Z.eqb_spec c 0x80) as [->|N]; [rewrite E; reflexivity|reflexivity].
Qed.
Lemma kx_by_code : by_code kx_props.
Proof.
  intros c p. cbn. destruct (Z.eqb_spec c 0x80) as [->|N]; [intros E; injection E as <-; reflexivity|]. destruct (Z.eqb_spec c 0xB0) as [->|N2]; [intros E; injection E as <-; reflexivity|discriminate].
Qed.
Example C104_ex :
  keeps_codes kx_handler /\ by_code kx_props /\
  a_run kx_handler (mkast kx_props []) kx_msgs =
  (mkast [(0x80, mkoprop 0x80 [0x42] 1 1 0); (0xB0, mkoprop 0xB0 [2] 1 1 0)]
     [QWrite (mkoprop 0x80 [0x30] 1 1 0) [0x31]; QWrite (mkoprop 0x80 [0x31] 1 1 0) [0x30];
      QWrite (mkoprop 0xB0 [1] 1 1 0) [2]; QRead (Some (mkoprop 0x80 [0x31] 1 1 0)); QRead None],
   [Ok (Some (mkmsg 1 0x029101 0x05FF01 0x50 [mkprop 0x80 []; mkprop 0x99 []; mkprop 0x80 [0x30]] [] [] None None)); Ok None;
    Ok (Some (mkmsg 3 0x029101 0x05FF01 0x5E [] [mkprop 0xB0 []] [mkprop 0x80 [0x42]; mkprop 0x99 []] None None))]).
Proof. split; [exact kx_keeps|]. split; [exact kx_by_code|]. vm_compute. reflexivity. Qed.
