(** Properties C11-C17 and C63: object codes, property tables, property maps. *)
From Verif Require Import PyBase BytesM MsgM PropM ObjM DbData DbM SpecWire SpecObj SpecMap ObjP MapP.

(** C11: object code composition and matching. *)
Theorem C11_set_code_tuple : forall cur g c i, byte_ok g -> byte_ok c -> byte_ok i ->
  set_code cur (PTup [g; c; i]) = (compose g c i, true) /\
  set_code cur (PTup [g; c]) = (compose g c 0, true) /\
  group_code (compose g c i) = g /\ class_code (compose g c i) = c /\
  instance_code (compose g c i) = i.
Proof. exact L_C11_set_code_tuple. Qed.
Print Assumptions C11_set_code_tuple.
Theorem C11_int_vs_tuple : forall cur cur' x, 0 <= x < 2 ^ 24 ->
  set_code cur (PTup [group_code x; class_code x; instance_code x]) = set_code cur' (PInt x).
Proof. exact L_C11_int_vs_tuple. Qed.
Print Assumptions C11_int_vs_tuple.
Theorem C11_is_code : forall x,
  (forall c, is_code x (PInt c) = true <-> x = c) /\
  (forall c, is_code x (PObj c) = true <-> x = c) /\
  (forall g, is_code x (PTup [g]) = true <-> group_of x = g) /\
  (forall g c, is_code x (PTup [g; c]) = true <-> group_of x = g /\ class_of x = c) /\
  (forall g c i, is_code x (PTup [g; c; i]) = true <->
     group_of x = g /\ class_of x = c /\ instance_of x = i) /\
  (forall l, (length l = 0 \/ 3 < length l)%nat -> is_code x (PTup l) = false) /\
  is_code x PNone = false /\ is_code x POther = false /\
  (forall g, is_group x g = true <-> group_of x = g) /\
  (forall g c, is_class x g c = true <-> group_of x = g /\ class_of x = c).
Proof. exact L_C11_is_code. Qed.
Print Assumptions C11_is_code.
Example C11_ex : set_code 0 (PTup [2; 0x91; 1]) = (0x029101, true) /\
  is_code 0x029101 (PTup [2; 0x91]) = true /\ is_code 0x029101 (PTup [2; 0x90]) = false.
Proof. repeat split. Qed.

(** C12: finding.  The setters only OR bits into the code, so a component that has other bits
    set already is not replaced; the exact result is [Z.lor old new], and the assignment is
    right exactly when the old bits are among the new ones. *)
Theorem C12_setters_refuted :
  (exists x g, byte_ok g /\ group_code (set_group_code g x) <> g) /\
  (exists x c, byte_ok c /\ class_code (set_class_code c x) <> c) /\
  (exists x i, byte_ok i /\ instance_code (set_instance_code i x) <> i).
Proof. exact L_C12_setters_refuted. Qed.
Print Assumptions C12_setters_refuted.
Theorem C12_setters_partial : forall x v, byte_ok v ->
  (group_code (set_group_code v x) = Z.lor (group_of x) v /\
   class_code (set_group_code v x) = class_of x /\
   instance_code (set_group_code v x) = instance_of x) /\
  (class_code (set_class_code v x) = Z.lor (class_of x) v /\
   group_code (set_class_code v x) = group_of x /\
   instance_code (set_class_code v x) = instance_of x) /\
  (instance_code (set_instance_code v x) = Z.lor (instance_of x) v /\
   group_code (set_instance_code v x) = group_of x /\
   class_code (set_instance_code v x) = class_of x) /\
  (group_code (set_group_code v x) = v <-> Z.land (group_of x) v = group_of x) /\
  (group_of x = 0 -> group_code (set_group_code v x) = v) /\
  (class_of x = 0 -> class_code (set_class_code v x) = v) /\
  (instance_of x = 0 -> instance_code (set_instance_code v x) = v).
Proof. exact L_C12_setters_partial. Qed.
Print Assumptions C12_setters_partial.
Example C12_ex : group_of 0x009101 = 0 /\ group_code (set_group_code 2 0x009101) = 2.
Proof. repeat split. Qed.

(** C13: finding.  set_code(Object) sets the code but returns False, therefore
    Database.get_object(Object) is None.  Every other kind of argument behaves as documented. *)
Theorem C13_object_argument_refuted :
  (exists cur c, set_code cur (PObj c) = (c, false) /\ cur <> c) /\
  (exists c, db_get_object (PObj c) = None /\ db_get_object (PInt c) <> None).
Proof. exact L_C13_object_argument_refuted. Qed.
Print Assumptions C13_object_argument_refuted.
Theorem C13_set_code_partial : forall cur,
  (forall c, set_code cur (PInt c) = (c, true)) /\
  (forall g c, exists x, set_code cur (PTup [g; c]) = (x, true)) /\
  (forall g c i, exists x, set_code cur (PTup [g; c; i]) = (x, true)) /\
  (forall c, fst (set_code cur (PObj c)) = c) /\
  set_code cur PNone = (cur, false) /\ set_code cur POther = (cur, false) /\
  (forall l, length l <> 2%nat -> length l <> 3%nat -> set_code cur (PTup l) = (cur, false)) /\
  (forall g c, byte_ok g -> byte_ok c ->
     db_get_object (PTup [g; c]) = db_get_object (PInt (compose g c 0))) /\
  (forall g c i, byte_ok g -> byte_ok c -> byte_ok i ->
     db_get_object (PTup [g; c; i]) = db_get_object (PInt (compose g c i))) /\
  (forall l, length l <> 2%nat -> length l <> 3%nat -> db_get_object (PTup l) = None) /\
  db_get_object PNone = None /\ db_get_object POther = None.
Proof. exact L_C13_set_code_partial. Qed.
Print Assumptions C13_set_code_partial.
Example C13_ex : db_get_object (PTup [2; 0x91]) <> None.
Proof. vm_compute. discriminate. Qed.

(** C14: the property table of an object is a map. *)
Theorem C14_table_is_map : forall h,
  let o := table_run h (new_object PNone) in
  (forall code, get_property code o = table_spec code (rev h)) /\
  (forall code, get_property_data code o
     = match table_spec code (rev h) with Some p => Some (op_data p) | None => None end) /\
  (forall code, has_property code o = true <->
     exists p, In (TAdd p) h /\ op_code p = code) /\
  dkeys (o_props o) = first_codes [] h /\ NoDup (dkeys (o_props o)) /\
  (forall code data, (~ exists p, In (TAdd p) h /\ op_code p = code) ->
     set_property_data code data o = (o, false)).
Proof. exact L_C14_table_is_map. Qed.
Print Assumptions C14_table_is_map.
Example C14_ex :
  let h := [TAdd (new_property 0x80 [0x30]); TAdd (new_property 0x81 []); TData 0x80 [0x31];
            TData 0x99 [1]; TInt 0x81 0x1234 2; TAdd (new_property 0x80 [0x32])] in
  dkeys (o_props (table_run h (new_object PNone))) = [0x80; 0x81] /\
  get_property_data 0x80 (table_run h (new_object PNone)) = Some [0x32] /\
  get_property_data 0x81 (table_run h (new_object PNone)) = Some [0x12; 0x34].
Proof. repeat split. Qed.

(** C15: finding for maps of 16 or more codes (see C16); proved for up to 15 codes.  [PySet] is
    any enumeration order of Python sets. *)
Theorem C15_maps_refuted : forall (PS : PySet) a, exists ps o d l,
  adds_ok ps /\ add_all ps (new_super_object a) = (o, Ok true) /\
  get_property_data 0x9F o = Some d /\ property_map_codes d = MapCodes l /\
  ~ describes l is_read_enabled ps.
Proof. exact L_C15_maps_refuted. Qed.
Print Assumptions C15_maps_refuted.
Theorem C15_maps_partial : forall (PS : PySet) a ps, adds_ok ps ->
  exists o, add_all ps (new_super_object a) = (o, Ok true) /\
    forall mc f, In (mc, f) map_kinds -> exists d, get_property_data mc o = Some d /\
      ((forall l, describes l f ps -> (length l <= 15)%nat) ->
       exists l, property_map_codes d = MapCodes l /\ describes l f ps).
Proof. exact L_C15_maps_partial. Qed.
Print Assumptions C15_maps_partial.
Definition few_props : list oprop :=
  [mkoprop 0x80 [0x30] 1 2 1; mkoprop 0x81 [0] 2 0 0; mkoprop 0x9D [] 1 0 0; mkoprop 0x9E [] 1 0 0; mkoprop 0x9F [] 1 0 0].
Example C15_ex : adds_ok few_props /\
  get_property_data 0x9F (fst (@add_all pyset_nodup few_props (new_super_object (PInt 0x029101))))
    = Some [5; 0x80; 0x81; 0x9D; 0x9E; 0x9F].
Proof.
  split; [|reflexivity]. split.
  - intros p Hp. cbn in Hp. intuition subst; cbn; lia.
  - intros c Hc. cbn in Hc. 
    destruct Hc as [<-|[<-|[<-|[]]]]; [exists (mkoprop 0x9D [] 1 0 0)|exists (mkoprop 0x9E [] 1 0 0)|exists (mkoprop 0x9F [] 1 0 0)];
      (split; [cbn; tauto|reflexivity]).
Qed.

(** C16: finding.  The bitmap written by the object has only four bits per byte and the count
    byte is always 16: the map reads back right exactly when it has 16 codes, all below 0xC0. *)
Theorem C16_large_maps_refuted : forall (PS : PySet) a, exists ps o m d l,
  adds_ok ps /\ add_all ps (new_super_object a) = (o, Ok true) /\
  describes m is_read_enabled ps /\ (16 <= length m)%nat /\
  get_property_data 0x9F o = Some d /\ property_map_codes d = MapCodes l /\ ~ same_codes l m.
Proof. exact L_C16_large_maps_refuted. Qed.
Print Assumptions C16_large_maps_refuted.
Theorem C16_large_maps_partial : forall (PS : PySet) a ps, adds_ok ps ->
  exists o, add_all ps (new_super_object a) = (o, Ok true) /\
    forall mc f m, In (mc, f) map_kinds -> describes m f ps -> (16 <= length m)%nat ->
      exists d l, get_property_data mc o = Some d /\ property_map_codes d = MapCodes l /\
        (describes l f ps <-> length m = 16%nat /\ forall c, In c m -> c < 0xC0).
Proof. exact L_C16_large_maps_partial. Qed.
Print Assumptions C16_large_maps_partial.
Example C16_ex : describes wit_read is_read_enabled wit_props /\ length wit_read = 19%nat.
Proof. split; [exact wit_describes|reflexivity]. Qed.

(** C17: property_map_codes on the maps of the specification.  Finding: in format 2 the codes
    from 0xC0 are lost (and the list padded with zeros), and a bitmap that does not match the
    count is accepted. *)
Theorem C17_format1 : forall codes data, std_map1 codes data ->
  property_map_codes data = MapCodes codes.
Proof. exact L_C17_format1. Qed.
Print Assumptions C17_format1.
Theorem C17_not_a_map : forall data, ~ map_shape data ->
  property_map_codes data = MapNone \/ property_map_codes data = MapFalse.
Proof. exact L_C17_not_a_map. Qed.
Print Assumptions C17_not_a_map.
Theorem C17_format2_refuted :
  (exists codes data l, std_map2 codes data /\ property_map_codes data = MapCodes l /\
     ~ same_codes l codes) /\
  (exists data l, (forall codes, ~ std_map1 codes data) /\ (forall codes, ~ std_map2 codes data) /\
     property_map_codes data = MapCodes l).
Proof. exact L_C17_format2_refuted. Qed.
Print Assumptions C17_format2_refuted.
Theorem C17_format2_partial : forall codes data, std_map2 codes data ->
  (exists low, same_codes low (filter (fun c => c <? 0xC0) codes) /\
     property_map_codes data = MapCodes (low ++ repeat 0 (length codes - length low))) /\
  ((forall c, In c codes -> c < 0xC0) ->
     exists l, property_map_codes data = MapCodes l /\ same_codes l codes).
Proof. exact L_C17_format2_partial. Qed.
Print Assumptions C17_format2_partial.
Example C17_ex : std_map1 [0x80; 0xD6] [2; 0x80; 0xD6] /\ std_map2 wit_codes wit_map /\ ~ map_shape [3; 0x80].
Proof.
  split; [split; [cbn; lia|reflexivity]|]. split; [exact wit_std|].
  intros (cnt & rest & E & [(A & B)|(A & B)]); injection E as <- <-; [vm_compute in B; discriminate|lia].
Qed.

(** C63: access predicates and attribute assignment. *)
Theorem C63_access_predicates : forall p,
  (is_read_enabled p = true <-> op_get p = 1 \/ op_get p = 2) /\
  (is_write_enabled p = true <-> op_set p = 1 \/ op_set p = 2) /\
  (is_announce_enabled p = true <-> op_anno p = 1 \/ op_anno p = 2) /\
  (is_read_required p = true <-> op_get p = 1) /\
  (is_write_required p = true <-> op_set p = 1) /\
  (is_announce_required p = true <-> op_anno p = 1) /\
  (is_mandatory p = true <-> op_get p = 1 \/ op_set p = 1 \/ op_anno p = 1).
Proof. exact L_C63_access_predicates. Qed.
Print Assumptions C63_access_predicates.
Theorem C63_set_attribute : forall p v,
  set_attribute 0 v p = (mkoprop (op_code p) (op_data p) v (op_set p) (op_anno p), Ok tt) /\
  set_attribute 1 v p = (mkoprop (op_code p) (op_data p) (op_get p) v (op_anno p), Ok tt) /\
  set_attribute 2 v p = (mkoprop (op_code p) (op_data p) (op_get p) (op_set p) v, Ok tt) /\
  (forall t q, set_attribute t v p = (q, Ok tt) -> get_attribute t q = Ok v) /\
  (forall t, (t < -3 \/ 2 < t) -> set_attribute t v p = (p, Err IndexError)).
Proof. exact L_C63_set_attribute. Qed.
Print Assumptions C63_set_attribute.
Example C63_ex : is_write_enabled (mkoprop 0x80 [] 1 2 0) = true /\ is_write_required (mkoprop 0x80 [] 1 2 0) = false
  /\ is_mandatory (mkoprop 0x80 [] 1 2 0) = true.
Proof. repeat split. Qed.
