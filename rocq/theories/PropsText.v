(** Property C71: strings as property data. *)
From Verif Require Import PyBase BytesM MsgM PropM ObjM SpecWire TextM SpecText TextP.

Theorem C71_string : forall code s o, Forall code_point s ->
  (* a string with a surrogate raises and changes nothing *)
  (Exists surrogate s -> set_property_string code s o = (o, Err ValueError)) /\
  (Forall (fun c => ~ surrogate c) s -> exists b, utf8_text s b /\ bytes_ok b /\
     match get_property code o with
     | None => set_property_string code s o = (o, Ok false)
     | Some p => exists o', set_property_string code s o = (o', Ok true) /\
         get_property_data code o' = Some b /\ option_map (set_op_data (op_data p)) (get_property code o') = Some p /\
         (forall k, k <> code -> get_property k o' = get_property k o)
     end).
Proof. exact L_C71_string. Qed.
Print Assumptions C71_string.
(** An A, an e with acute accent, the euro sign and a musical clef: one to four octets. *)
Definition tx_obj : obj := mkobj 0x029101 "" [(0x8B, mkoprop 0x8B [] 1 1 1)] HSuper 0 [] CObject.
Example C71_ex : exists o, set_property_string 0x8B [0x41; 0xE9; 0x20AC; 0x1D11E] tx_obj = (o, Ok true) /\
  get_property_data 0x8B o = Some [0x41; 0xC3; 0xA9; 0xE2; 0x82; 0xAC; 0xF0; 0x9D; 0x84; 0x9E].
Proof. eexists. split; [vm_compute; reflexivity|reflexivity]. Qed.
Example C71_refused_ex : set_property_string 0x8B [0x41; 0xD800] tx_obj = (tx_obj, Err ValueError) /\
  set_property_string 0x8C [0x41] tx_obj = (tx_obj, Ok false).
Proof. split; reflexivity. Qed.
Theorem C71_unambiguous : forall s s' b, utf8_text s b -> utf8_text s' b -> s = s'.
Proof. exact L_C71_unambiguous. Qed.
Print Assumptions C71_unambiguous.
(** The octets C3 A9 are the text e-acute and no other; C0 80, ED A0 80 and F4 90 80 80 are no text. *)
Example C71_unambiguous_ex : utf8_text [0xE9] [0xC3; 0xA9].
Proof. apply (utf8_cons 0xE9 [] [0xC3; 0xA9] []); [|constructor]. apply (utf8_2 0xC3 0xA9); unfold tail_byte; lia. Qed.
Example C71_no_text_ex : forall c, ~ utf8_of c [0xC0; 0x80] /\ ~ utf8_of c [0xED; 0xA0; 0x80] /\ ~ utf8_of c [0xF4; 0x90; 0x80; 0x80].
Proof. intros c. repeat split; intros H; inversion H; lia. Qed.
