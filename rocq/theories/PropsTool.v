(** Properties C73 and C74: the command line tools. *)
From Coq Require Import Decimal DecimalString.
From Verif Require Import PyBase BytesM MsgM PropM ObjM DbData DbM NodeM LocalM CtrlM
  SpecWire SpecHex SpecObj SpecMap SpecDb SpecNode SpecCtrl ToolM SpecTool MapP DbP CtrlP ToolP PropsCodec.

Theorem C73_message_partial : forall obj bo esv be args (l : list prop),
  hex_text obj bo -> hex_text esv be ->
  (* each tuple is (code) or (code, data) *)
  Forall2 (fun (a : field * option field) p => no_leading_zero (fst a) /\
     (exists b, spells (fst a) b /\ p_code p = be_val b) /\
     match snd a with None => p_data p = [] | Some f => no_leading_zero f /\ spells f (p_data p) end) args l ->
  tool_message obj esv (map (fun a => evaluated (fst a) :: match snd a with None => [] | Some f => [evaluated f] end) args)
  = Ok (mkmsg 0 0 (be_val bo) (be_val be) l [] [] None None).
Proof. exact L_C73_message_partial. Qed.
Print Assumptions C73_message_partial.
(** uechopost 192.168.1.2 029101 61 "(80, '30')" "('B0', 42)" "(81,)" *)
Definition ux_args : list (field * option field) :=
  [(Digits (D8 (D0 Nil)), Some (Quoted "30")); (Quoted "B0", Some (Digits (D4 (D2 Nil)))); (Digits (D8 (D1 Nil)), None)].
Definition ux_props : list prop := [mkprop 0x80 [0x30]; mkprop 0xB0 [0x42]; mkprop 0x81 []].
Lemma ux_spells f t b : spelled f = Some t -> from_string t = Ok b -> spells f b.
Proof. intros E H. exists t. split; [exact E|]. now apply (proj1 (C02_from_string t)). Qed.
Example C73_ex : Forall2 (fun (a : field * option field) p => no_leading_zero (fst a) /\
     (exists b, spells (fst a) b /\ p_code p = be_val b) /\
     match snd a with None => p_data p = [] | Some f => no_leading_zero f /\ spells f (p_data p) end) ux_args ux_props /\
  tool_message "029101" "61" [[LInt 80; LStr "30"]; [LStr "B0"; LInt 42]; [LInt 81]] =
    Ok (mkmsg 0 0 0x029101 0x61 ux_props [] [] None None).
Proof.
  split; [|reflexivity]. unfold ux_args, ux_props. constructor; [|constructor; [|constructor; [|constructor]]]; cbn [fst snd p_code p_data no_leading_zero].
  - split; [exact I|]. split; [exists [0x80]; split; [eapply ux_spells; reflexivity|reflexivity]|]. split; [exact I|eapply ux_spells; reflexivity].
  - split; [exact I|]. split; [exists [0xB0]; split; [eapply ux_spells; reflexivity|reflexivity]|]. split; [exact I|eapply ux_spells; reflexivity].
  - split; [exact I|]. split; [exists [0x81]; split; [eapply ux_spells; reflexivity|reflexivity]|reflexivity].
Qed.
Theorem C73_numbers_refuted :
  (* (0x80,) and (80,00) raise; (80,0x30) sends 0x48 *)
  tool_message "029101" "61" [[evaluated (Based 0x80)]] = Err ValueError /\
  tool_message "029101" "61" [[evaluated (Digits (D8 (D0 Nil))); evaluated (Digits (D0 (D0 Nil)))]] = Err ValueError /\
  tool_message "029101" "61" [[evaluated (Digits (D8 (D0 Nil))); evaluated (Based 0x30)]] =
    Ok (mkmsg 0 0 0x029101 0x61 [mkprop 0x80 [0x48]] [] [] None None).
Proof. exact L_C73_numbers_refuted. Qed.
Print Assumptions C73_numbers_refuted.
Theorem C73_write_read_refuted : forall obj l m, tool_message obj "6E" l = Ok m -> m_sets m = [] /\ m_gets m = [] /\
  (forall b, to_bytes m = Ok b -> exists h, length h = 10%nat /\ b = h ++ [0x6E; 0; 0]).
Proof. exact L_C73_write_read_refuted. Qed.
Print Assumptions C73_write_read_refuted.
Example C73_write_read_ex : tool_message "029101" "6E" [[LInt 80; LInt 30]] = Ok (mkmsg 0 0 0x029101 0x6E [mkprop 0x80 [0x30]] [] [] None None) /\
  to_bytes (mkmsg 0 0 0x029101 0x6E [mkprop 0x80 [0x30]] [] [] None None) = Ok [0x10; 0x81; 0; 0; 0; 0; 0; 2; 0x91; 1; 0x6E; 0; 0].
Proof. split; reflexivity. Qed.

Theorem C74_reads : forall (PS : PySet) a m codes, typed m -> carries_list m = Some codes ->
  exists n n', new_remote (Some a) = (n, Ok tt) /\ remote_parse m n = (n', Ok true) /\ NoDup (search_reads n') /\
    forall k x, In (k, x) (search_reads n') <->
      In k (0x0EF001 :: codes) /\
      exists r, row_for x (object_rows (group_of k) (class_of k)) = Some r /\ In (fst (fst (snd r))) ["mandatory"; "required"]%string.
Proof. exact L_C74_reads. Qed.
Print Assumptions C74_reads.
(** A node that announces one mono functional light: 12 mandatory properties of the profile and 8 of the light are read. *)
Definition ux_announce : msg := mkmsg 1 0x0EF001 0x0EF001 0x73 [mkprop 0xD5 [1; 2; 0x91; 1]] [] [] None None.
Example C74_ex : typed ux_announce /\ carries_list ux_announce = Some [0x029101] /\
  search_reads (fst (@remote_parse pyset_nodup ux_announce (fst (@new_remote pyset_nodup None)))) =
    map (pair 0x0EF001) [0x80; 0x81; 0x82; 0x83; 0x8A; 0x9D; 0x9E; 0x9F; 0xD3; 0xD4; 0xD6; 0xD7] ++
    map (pair 0x029101) [0x80; 0x81; 0x82; 0x88; 0x8A; 0x9D; 0x9E; 0x9F].
Proof. split; [repeat constructor; cbn; unfold byte_ok; lia|]. split; [reflexivity|]. vm_compute. reflexivity. Qed.
