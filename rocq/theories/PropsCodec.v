(** Properties C01-C10 and C64: byte conversion and the message codec. *)
From Verif Require Import PyBase BytesM EsvM MsgM SpecWire SpecHex CodecP.

(** C01: Bytes.from_int / Bytes.to_int are big-endian arithmetic. *)
Theorem C01_from_int : forall v n,
  (n < 0 -> from_int v n = Err ValueError) /\
  (0 <= n -> exists b, from_int v n = Ok b /\ zlen b = n /\ bytes_ok b /\
               be_val b = v mod 256 ^ n /\ to_int b = v mod 256 ^ n).
Proof. exact L_C01_from_int. Qed.
Print Assumptions C01_from_int.
Theorem C01_to_int : forall b, bytes_ok b ->
  to_int b = be_val b /\ 0 <= to_int b < 256 ^ zlen b /\ from_int (to_int b) (zlen b) = Ok b.
Proof. exact L_C01_to_int. Qed.
Print Assumptions C01_to_int.
Example C01_ex : from_int (-2) 3 = Ok [255; 255; 254] /\ to_int [1; 2; 3] = 66051 /\
  from_int 5 (-1) = Err ValueError.
Proof. repeat split. Qed.

(** C02: hexadecimal text. *)
Theorem C02_from_string : forall s,
  (forall b, from_string s = Ok b <-> hex_text s b) /\
  ((~ exists b, hex_text s b) -> from_string s = Err ValueError).
Proof. exact L_C02_from_string. Qed.
Print Assumptions C02_from_string.
Theorem C02_hex_round_trip : forall b, bytes_ok b ->
  from_string (to_hex_upper b) = Ok b /\ hex_from_string (to_hex_upper b) = Ok (be_val b).
Proof. exact L_C02_hex_round_trip. Qed.
Print Assumptions C02_hex_round_trip.
Theorem C02_hex_from_string : forall s b, hex_text s b -> hex_from_string s = Ok (be_val b).
Proof. exact L_C02_hex_from_string. Qed.
Print Assumptions C02_hex_from_string.
Theorem C02_message_round_trip : forall m, encodable m -> typed m ->
  exists b s, to_bytes m = Ok b /\ to_string m = Ok s /\
    (forall m0, parse_hexstring m0 s = parse_bytes m0 b) /\
    parse_hexstring new_msg s = (carried m, Ok true).
Proof. exact L_C02_message_round_trip. Qed.
Print Assumptions C02_message_round_trip.
Example C02_ex : from_string " 0eF0 01" = Ok [0x0E; 0xF0; 1] /\ from_string "0 1" = Err ValueError /\
  to_hex_upper [0x0E; 0xF0; 1] = "0EF001"%string.
Proof. repeat split. Qed.
Example C02_ex_msg : encodable (set_SEOJ 0x0EF001 search_message) /\ typed search_message.
Proof. repeat split; repeat constructor; unfold zlen; simpl; discriminate. Qed.

(** C03: encoder layout. *)
Theorem C03_to_bytes_layout : forall m,
  (encodable m -> to_bytes m = Ok (wire m)) /\
  (~ encodable m -> to_bytes m = Err ValueError).
Proof. exact L_C03_to_bytes_layout. Qed.
Print Assumptions C03_to_bytes_layout.
Example C03_ex : to_bytes search_message
  = Ok [0x10; 0x81; 0; 0; 0x0E; 0xF0; 1; 0x0E; 0xF0; 1; 0x62; 1; 0xD6; 0].
Proof. reflexivity. Qed.
Example C03_ex_two_blocks :
  to_bytes (set_sets [mkprop 0x80 [0x30]] (set_gets [mkprop 0x80 []] (write_read_request 0x029101)))
  = Ok [0x10; 0x81; 0; 0; 0x0E; 0xF0; 1; 0x02; 0x91; 1; 0x6E; 1; 0x80; 1; 0x30; 1; 0x80; 0].
Proof. reflexivity. Qed.
Example C03_ex_not_encodable : ~ encodable (set_props [mkprop 256 []] new_msg).
Proof. intros [_ H]. destruct H as [_ H]. inversion H as [|? ? [[_ A] _] _]; subst. discriminate A. Qed.

(** C04: decoding an encoded message. *)
Theorem C04_decode_encode : forall m b, to_bytes m = Ok b ->
  parse_bytes new_msg b = (carried m, Ok true).
Proof. exact L_C04_decode_encode. Qed.
Print Assumptions C04_decode_encode.
Theorem C04_decode_encode_in_range : forall m b,
  0 <= m_TID m < 2 ^ 16 -> 0 <= m_SEOJ m < 2 ^ 24 -> 0 <= m_DEOJ m < 2 ^ 24 ->
  to_bytes m = Ok b ->
  exists m', parse_bytes new_msg b = (m', Ok true) /\
    m_TID m' = m_TID m /\ m_SEOJ m' = m_SEOJ m /\ m_DEOJ m' = m_DEOJ m /\ m_ESV m' = m_ESV m /\
    (if two_blocks (m_ESV m)
     then m_sets m' = m_sets m /\ m_gets m' = m_gets m /\ m_props m' = []
     else m_props m' = m_props m /\ m_sets m' = [] /\ m_gets m' = []).
Proof. exact L_C04_decode_encode_in_range. Qed.
Print Assumptions C04_decode_encode_in_range.
Example C04_ex : to_bytes (set_TID 0x12345 search_message)
  = Ok [0x10; 0x81; 0x23; 0x45; 0x0E; 0xF0; 1; 0x0E; 0xF0; 1; 0x62; 1; 0xD6; 0].
Proof. reflexivity. Qed.

(** C05: the parser accepts exactly the frames. *)
Theorem C05_parser_accepts_frames : forall b, bytes_ok b ->
  (forall m, parse_bytes new_msg b = (m, Ok true) <-> denotes b m) /\
  (forall m m', denotes b m -> denotes b m' -> m = m') /\
  (forall x, snd (parse_bytes new_msg b) = Ok x -> x = true).
Proof. exact L_C05_parser_accepts_frames. Qed.
Print Assumptions C05_parser_accepts_frames.
Example C05_ex :
  parse_bytes new_msg [0x10; 0x81; 0; 7; 0x0E; 0xF0; 1; 0x02; 0x91; 1; 0x62; 1; 0x80; 0; 0xFF; 0xFF]
  = (set_props [mkprop 0x80 []] (set_TID 7 (read_request 0x029101)), Ok true).
Proof. reflexivity. Qed.

(** C06: copying a received message. *)
Theorem C06_copy_received : forall m0 b m f t, bytes_ok b -> parse_bytes m0 b = (m, Ok true) ->
  let m' := set_to t (set_from f m) in
  (exists b' tail, to_bytes m' = Ok b' /\ b = b' ++ tail) /\
  (exists c, copy_msg m' = Ok c /\ msg_eq c m' = Ok true /\ m_from c = f /\ m_to c = t /\
     c = set_to t (set_from f (carried m))) /\
  (m0 = new_msg -> copy_msg m' = Ok m').
Proof. exact L_C06_copy_received. Qed.
Print Assumptions C06_copy_received.
Example C06_ex : exists m, parse_bytes new_msg
  [0x10; 0x81; 0; 7; 0x0E; 0xF0; 1; 0x02; 0x91; 1; 0x6E; 1; 0x80; 1; 0x30; 1; 0x80; 0] = (m, Ok true)
  /\ OPCSet m = 1 /\ OPCGet m = 1.
Proof. eexists. repeat split. Qed.

(** C07: finding.  Some malformed frames raise IndexError instead of ParserError; the exact
    set is [index_cut].  No truncated frame is ever accepted. *)
Theorem C07_malformed_refuted :
  exists b, bytes_ok b /\ (~ exists m, denotes b m) /\
    snd (parse_bytes new_msg b) = Err IndexError.
Proof. exact L_C07_malformed_refuted. Qed.
Print Assumptions C07_malformed_refuted.
Theorem C07_malformed_partial : forall b, bytes_ok b -> (~ exists m, denotes b m) ->
  (index_cut b /\ snd (parse_bytes new_msg b) = Err IndexError) \/
  (~ index_cut b /\ snd (parse_bytes new_msg b) = Err ParserError).
Proof. exact L_C07_malformed_partial. Qed.
Print Assumptions C07_malformed_partial.
Theorem C07_truncated_never_accepted : forall m b k, to_bytes m = Ok b -> typed m ->
  (k < length b)%nat -> exists e, snd (parse_bytes new_msg (firstn k b)) = Err e /\
    (e = ParserError \/ e = IndexError).
Proof. exact L_C07_truncated_never_accepted. Qed.
Print Assumptions C07_truncated_never_accepted.
Example C07_ex_parser_error : snd (parse_bytes new_msg [0x10; 0x82; 0; 0; 0; 0; 0; 0]) = Err ParserError.
Proof. reflexivity. Qed.
Example C07_ex_before_pdc :
  index_cut [0x10; 0x81; 0; 1; 0x0E; 0xF0; 1; 0x0E; 0xF0; 1; 0x62; 1; 0xD6].
Proof.
  exists [0; 1; 0x0E; 0xF0; 1; 0x0E; 0xF0; 1; 0x62; 1; 0xD6]. split; [reflexivity|]. right.
  exists [0; 1; 0x0E; 0xF0; 1; 0x0E; 0xF0; 1], 0x62, [1; 0xD6]. repeat split.
  exists 1, [], 0xD6. repeat split. constructor.
Qed.

(** C08: finding.  Parsing into a used Message keeps stale property lists; the lists the
    service carries, and everything for a message without properties, depend on the bytes only. *)
Theorem C08_reparse_refuted :
  exists b m0 m1, bytes_ok b /\ snd (parse_bytes m0 b) = Ok true /\ snd (parse_bytes m1 b) = Ok true /\
    all_properties (fst (parse_bytes m0 b)) <> all_properties (fst (parse_bytes m1 b)) /\
    OPCSet (fst (parse_bytes m0 b)) <> OPCSet (fst (parse_bytes m1 b)).
Proof. exact L_C08_reparse_refuted. Qed.
Print Assumptions C08_reparse_refuted.
Theorem C08_reparse_partial : forall b m0 m, bytes_ok b -> parse_bytes m0 b = (m, Ok true) ->
  exists c, denotes b c /\
    m_TID m = m_TID c /\ m_SEOJ m = m_SEOJ c /\ m_DEOJ m = m_DEOJ c /\ m_ESV m = m_ESV c /\
    (if two_blocks (m_ESV c)
     then m_sets m = m_sets c /\ m_gets m = m_gets c /\ m_props m = m_props m0
     else m_props m = m_props c /\ m_sets m = m_sets m0 /\ m_gets m = m_gets m0) /\
    (m_props m0 = [] -> m_sets m0 = [] -> m_gets m0 = [] -> all_properties m = all_properties c).
Proof. exact L_C08_reparse_partial. Qed.
Print Assumptions C08_reparse_partial.
Example C08_ex : exists m, parse_bytes (set_TID 5 (set_props [mkprop 0x80 []] new_msg))
  [0x10; 0x81; 0; 7; 0x0E; 0xF0; 1; 0x02; 0x91; 1; 0x62; 1; 0x81; 0] = (m, Ok true) /\
  m_props m = [mkprop 0x81 []].
Proof. eexists. repeat split. Qed.

(** C09: equality of messages. *)
Theorem C09_message_equality : forall a b, encodable a -> encodable b ->
  (exists r, msg_eq a b = Ok r) /\ (msg_eq a b = Ok true <-> carried a = carried b).
Proof. exact L_C09_message_equality. Qed.
Print Assumptions C09_message_equality.
Theorem C09_message_equivalence :
  (forall a, encodable a -> msg_eq a a = Ok true) /\
  (forall a b, encodable a -> encodable b -> msg_eq a b = Ok true -> msg_eq b a = Ok true) /\
  (forall a b c, encodable a -> encodable b -> encodable c ->
     msg_eq a b = Ok true -> msg_eq b c = Ok true -> msg_eq a c = Ok true) /\
  (forall a f t, encodable a -> msg_eq a (set_to t (set_from f a)) = Ok true).
Proof. exact L_C09_message_equivalence. Qed.
Print Assumptions C09_message_equivalence.
Theorem C09_unencodable : forall a b, ~ (encodable a /\ encodable b) -> msg_eq a b = Err ValueError.
Proof. exact L_C09_unencodable. Qed.
Print Assumptions C09_unencodable.
Example C09_ex : msg_eq search_message (set_TID 65536 (set_sets [mkprop 1 []] search_message)) = Ok true
  /\ msg_eq search_message (set_TID 1 search_message) = Ok false.
Proof. repeat split. Qed.

(** C10: classification of service codes. *)
Theorem C10_esv_classification : forall e,
  (is_request e = true <-> In e [0x60; 0x61; 0x62; 0x63; 0x6E; 0x74]) /\
  is_response e = negb (is_request e) /\
  (is_read_request e = true <-> In e [0x62; 0x6E]) /\
  (is_write_request e = true <-> In e [0x60; 0x61; 0x6E]) /\
  (is_notification_request e = true <-> In e [0x63]) /\
  (is_read_request e || is_write_request e || is_notification_request e = true ->
     is_request e = true) /\
  (is_response_required e = true <-> (is_request e = true /\ e <> 0x60)) /\
  (is_write_response e = true <-> In e [0x71; 0x7E]) /\
  (is_read_response e = true <-> In e [0x72; 0x7E]) /\
  (is_notification e = true <-> In e [0x73; 0x74]) /\
  (is_notification_response e = true <-> In e [0x7A]) /\
  (is_write_response e || is_read_response e || is_notification_response e
     || is_write_read_response e = true -> is_response e = true) /\
  (is_read_write_message e = true <-> In e [0x6E; 0x7E; 0x5E]) /\
  is_read_write_message e = two_blocks e.
Proof. exact L_C10_esv_classification. Qed.
Print Assumptions C10_esv_classification.
Example C10_ex : is_request 0x74 = true /\ is_notification 0x74 = true /\ is_response 0x7A = true /\
  is_request 0x12345 = false.
Proof. repeat split. Qed.

(** C64: adding properties to a message. *)
Theorem C64_add_property : forall m a,
  (forall p, (a = PAProp p \/ (a = PAInt (p_code p) /\ p_data p = []) \/
              a = PATuple2 (p_code p) (p_data p)) ->
     add_property a m = (set_props (m_props m ++ [p]) m, true) /\
     add_set_property a m = (set_sets (m_sets m ++ [p]) m, true) /\
     add_get_property a m = (set_gets (m_gets m ++ [p]) m, true)) /\
  ((a = PATupleN \/ a = PAOther) ->
     add_property a m = (m, false) /\ add_set_property a m = (m, false) /\
     add_get_property a m = (m, false)).
Proof. exact L_C64_add_property. Qed.
Print Assumptions C64_add_property.
Example C64_ex : fst (add_property (PATuple2 0x80 [0x30]) search_message)
  = set_props [mkprop 0xD6 []; mkprop 0x80 [0x30]] search_message.
Proof. reflexivity. Qed.
