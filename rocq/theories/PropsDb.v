(** Properties C56-C58: the standard database. *)
From Verif Require Import PyBase BytesM MsgM PropM ObjM DbData DbM SpecWire SpecObj SpecMap SpecDb MapP DbP.

(** C56: standard objects carry the properties of the tables ... *)
Theorem C56_standard_properties : forall (PS : PySet) a code, set_code 0 a = (code, true) ->
  exists o, new_standard a = (o, Ok tt) /\ o_code o = code /\ o_handler o = HSuper /\
    forall x, match row_for x (object_rows (group_of code) (class_of code)) with
              | Some r => exists p, get_property x o = Some p /\ matches_row p r
              | None => get_property x o = None
              end.
Proof. exact L_C56_standard_properties. Qed.
Print Assumptions C56_standard_properties.
(** ... with data only in the property maps ... *)
Theorem C56_no_data : forall (PS : PySet) a code o, set_code 0 a = (code, true) -> new_standard a = (o, Ok tt) ->
  forall x p, get_property x o = Some p -> ~ In x [0x9D; 0x9E; 0x9F] -> op_data p = [].
Proof. exact L_C56_no_data. Qed.
Print Assumptions C56_no_data.
(** ... but their maps share the finding of C16: the property map of almost every standard
    object (e.g. mono functional lighting, 25 readable properties) reads back wrong. *)
Theorem C56_maps_refuted : forall (PS : PySet), exists a o m d l,
  new_standard a = (o, Ok tt) /\ own_codes m is_read_enabled o /\
  get_property_data 0x9F o = Some d /\ property_map_codes d = MapCodes l /\ ~ same_codes l m.
Proof. exact L_C56_maps_refuted. Qed.
Print Assumptions C56_maps_refuted.
Theorem C56_maps_partial : forall (PS : PySet) a code, set_code 0 a = (code, true) ->
  exists o, new_standard a = (o, Ok tt) /\
    forall mc f, In (mc, f) map_kinds -> exists m d, own_codes m f o /\ get_property_data mc o = Some d /\
      ((length m <= 15)%nat -> property_map_codes d = MapCodes m) /\
      ((16 <= length m)%nat -> exists l, property_map_codes d = MapCodes l /\
         (same_codes l m <-> length m = 16%nat /\ forall c, In c m -> c < 0xC0)).
Proof. exact L_C56_maps_partial. Qed.
Print Assumptions C56_maps_partial.
Example C56_ex : set_code 0 (PTup [2; 0x91; 1]) = (0x029101, true) /\
  row_for 0xB0 (object_rows 2 0x91) = Some (0xB0, (r_o, r_o, r_o)) /\
  row_for 0x80 (object_rows 2 0x91) = Some (0x80, (r_r, r_r, r_r)) /\
  row_for 0x8A (std_rows 2 0x91) = None /\ row_for 0x8A (object_rows 2 0x91) <> None /\
  row_for 0xF0 (object_rows 2 0x91) = None.
Proof. vm_compute. repeat split; discriminate. Qed.

(** C57: finding.  The rules "required_c" and "required_o" (required under a condition) become
    PROHIBITED: the measured value of an illuminance sensor cannot be read. *)
Theorem C57_rules_refuted : forall (PS : PySet), exists a code x r o p, set_code 0 a = (code, true) /\
  row_for x (object_rows (group_of code) (class_of code)) = Some r /\ marked (fst (fst (snd r))) /\
  new_standard a = (o, Ok tt) /\ get_property x o = Some p /\ is_read_enabled p = false.
Proof. exact L_C57_rules_refuted. Qed.
Print Assumptions C57_rules_refuted.
Theorem C57_rules_partial : forall (PS : PySet) a code x r, set_code 0 a = (code, true) ->
  row_for x (object_rows (group_of code) (class_of code)) = Some r ->
  exists o p, new_standard a = (o, Ok tt) /\ get_property x o = Some p /\
    (marked_plainly (fst (fst (snd r))) -> is_read_enabled p = true) /\
    (marked_plainly (snd (fst (snd r))) -> is_write_enabled p = true) /\
    (marked_plainly (snd (snd r)) -> is_announce_enabled p = true).
Proof. exact L_C57_rules_partial. Qed.
Print Assumptions C57_rules_partial.
Example C57_ex : exists r, row_for 0xB0 (object_rows 2 0x91) = Some r /\ marked_plainly (snd (fst (snd r))).
Proof. exists (0xB0, (r_o, r_o, r_o)). split; [vm_compute; reflexivity|cbn; tauto]. Qed.

(** C58: manufacturer lookup. *)
Theorem C58_manufacturer : forall c, get_manufacturer (MAInt c) = manufacturer_of c /\
  get_manufacturer_name (MAInt c) = option_map snd (manufacturer_of c) /\
  (forall b, bytes_ok b -> be_val b = c -> get_manufacturer (MABytes b) = manufacturer_of c) /\
  (forall n, 0 <= c < 256 ^ Z.of_nat n -> get_manufacturer (MABytes (be n c)) = manufacturer_of c).
Proof. exact L_C58_manufacturer. Qed.
Print Assumptions C58_manufacturer.
Example C58_ex : get_manufacturer_name (MABytes [0; 0; 0x2F]) = Some "AIPHONE CO., LTD."%string /\
  get_manufacturer (MAInt 0xFFFFF1) = None.
Proof. split; vm_compute; reflexivity. Qed.
