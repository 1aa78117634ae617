(** Exact forms of C15, C16, C32, C43, C59, C60, C73 and C84: what the code does in the cases their other theorems leave out. *)
From Coq Require Import Decimal DecimalString.
From Verif Require Import PyBase BytesM EsvM MsgM PropM ObjM DbData DbM NodeM LocalM CtrlM RestM
  SpecWire SpecObj SpecMap SpecReq SpecNode SpecLocal SpecSrv SpecHex SpecExact SpecBits ToolM SpecTool MapP NodeP AnswerP BitsP.

(** C15: a map of up to 15 codes is their number and the codes. *)
Theorem C15_exact : forall (PS : PySet) a ps, adds_ok ps ->
  exists o, add_all ps (new_super_object a) = (o, Ok true) /\
    forall mc f m, In (mc, f) map_kinds -> describes m f ps -> (length m <= 15)%nat ->
      exists l, describes l f ps /\ get_property_data mc o = Some (zlen m :: l) /\ property_map_codes (zlen m :: l) = MapCodes l.
Proof. exact L_C15_exact. Qed.
Print Assumptions C15_exact.
(** C16: a larger map is 16 and a bitmap of the codes below 0xC0; reading it back gives at most 16 of these codes, filled up with zeros. *)
Theorem C16_exact : forall (PS : PySet) a ps, adds_ok ps ->
  exists o, add_all ps (new_super_object a) = (o, Ok true) /\
    forall mc f m, In (mc, f) map_kinds -> describes m f ps -> (16 <= length m)%nat ->
      exists bm, get_property_data mc o = Some (16 :: bm) /\ length bm = 16%nat /\ bytes_ok bm /\
        (forall i j, (i < 16)%nat -> 0 <= j ->
           (Z.testbit (nth i bm 0) j = true <-> j < 4 /\ In (0x80 + 0x10 * j + Z.of_nat i) m)) /\
        property_map_codes (16 :: bm) = MapCodes (firstn 16 (low_codes bm) ++ repeat 0 (16 - length (low_codes bm))).
Proof. exact L_C16_exact. Qed.
Print Assumptions C16_exact.
Example C16_exact_ex : let o := fst (@add_all pyset_nodup wit_props (new_super_object PNone)) in
  get_property_data 0x9F o = Some [16; 1; 1; 1; 1; 1; 1; 1; 1; 1; 1; 1; 1; 1; 3; 3; 3] /\
  property_map_codes [16; 1; 1; 1; 1; 1; 1; 1; 1; 1; 1; 1; 1; 1; 3; 3; 3] =
    MapCodes [0x80; 0x81; 0x82; 0x83; 0x84; 0x85; 0x86; 0x87; 0x88; 0x89; 0x8A; 0x8B; 0x8C; 0x8D; 0x9D; 0x8E].
Proof. split; vm_compute; reflexivity. Qed.

(** C32: a request with TID 0 is always answered with the next TID of the node. *)
Theorem C32_exact : forall (PS : PySet) w tr s a d f s' tr' r, bytes_ok d -> parse_bytes new_msg d = (f, Ok true) ->
  0 <= g_tid (ln_mgr s) <= 65535 -> slice d 2 4 = [0; 0] ->
  node_received w tr s (set_from (Some a) f) = (s', tr', r) ->
  exists evs, tr' = tr ++ evs /\ forall x, In x (sent evs) ->
    slice (send_bytes x) 2 4 = be 2 (g_tid (ln_mgr s) mod 65535 + 1) /\ slice (send_bytes x) 2 4 <> slice d 2 4.
Proof. exact L_C32_exact. Qed.
Print Assumptions C32_exact.
Example C32_exact_ex : slice (read_80 0) 2 4 = [0; 0] /\
  map (fun x => slice (send_bytes x) 2 4) (sent (snd (fst (@node_received pyset_nodup good_os [] (lamp_node None)
    (set_from (Some ("10.0.0.9"%string, 3610)) (fst (parse_bytes new_msg (read_80 0)))))))) = [[0; 1]].
Proof. split; vm_compute; reflexivity. Qed.

(** C43: whatever was started and stopped, the observers of the running servers are those added after the last start. *)
Theorem C43_exact : forall w ops s0 tr0 s tr, g_servers (ln_mgr s0) = [] -> reg_run w ops (s0, tr0) = (s, tr) ->
  forall i v, server_at s i = Some v -> users (s_obs v) = firsts Nat.eqb (added_since ops) /\ ~ In ONone (s_obs v).
Proof. exact L_C43_exact. Qed.
Print Assumptions C43_exact.
Example C43_exact_ex : added_since [RAdd 1; RLife (LStart []); RAdd 2; RAdd 3; RAdd 2] = [2; 3; 2]%nat /\
  map (fun v => users (s_obs v)) (g_servers (ln_mgr (fst (reg_run good_os [RAdd 1; RLife (LStart []); RAdd 2; RAdd 3; RAdd 2] (lamp_node None, []))))) =
  map (fun _ => [2; 3]%nat) (g_servers (ln_mgr (fst (reg_run good_os [RLife (LStart [])] (lamp_node None, []))))).
Proof. split; vm_compute; reflexivity. Qed.

(** C59: the answers of a controller always come from its node profile. *)
Theorem C59_exact : forall (PS : PySet) w tr s a d f s' tr' r, bytes_ok d -> parse_bytes new_msg d = (f, Ok true) ->
  node_received w tr s (set_from (Some a) f) = (s', tr', r) ->
  exists evs, tr' = tr ++ evs /\ forall x, In x (sent evs) ->
    slice (send_bytes x) 4 7 = match ln_ctl s with None => slice d 7 10 | Some _ => [0x0E; 0xF0; 0x01] end.
Proof. exact L_C59_exact. Qed.
Print Assumptions C59_exact.

(** C60: start() makes no use of its argument. *)
Theorem C60_ignored : forall w tr s l, local_start w tr s l = local_start w tr s [].
Proof. exact L_C60_ignored. Qed.
Print Assumptions C60_ignored.

(** C73: an integer of up to three decimal digits is sent as one byte with these digits if it has two, and refused otherwise. *)
Theorem C73_decimal : forall obj bo esv be n, hex_text obj bo -> hex_text esv be -> 0 <= n <= 999 ->
  tool_message obj esv [[LStr "80"; LInt n]] =
  if (10 <=? n) && (n <=? 99) then Ok (mkmsg 0 0 (be_val bo) (be_val be) [mkprop 0x80 [16 * (n / 10) + n mod 10]] [] [] None None) else Err ValueError.
Proof. exact L_C73_decimal. Qed.
Print Assumptions C73_decimal.
Example C73_decimal_ex : tool_message "029101" "61" [[LStr "80"; LInt 0x30]] = Ok (mkmsg 0 0 0x029101 0x61 [mkprop 0x80 [0x48]] [] [] None None) /\
  tool_message "029101" "61" [[LStr "80"; LInt 5]] = Err ValueError.
Proof. split; vm_compute; reflexivity. Qed.

(** C84: the read-only object is nothing but an object with another code. *)
Theorem C84_same : new_super_readonly = new_super_object (PInt 0x0EF002).
Proof. exact L_C84_same. Qed.
Print Assumptions C84_same.
