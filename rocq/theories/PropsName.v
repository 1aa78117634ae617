(** Property C118: what standard objects and their properties are called. *)
From Verif Require Import PyBase BytesM MsgM PropM ObjM DbData DbM NameData NameM SpecObj SpecDb NodeM LocalM CtrlM BenchM OutM LogM
  SpecWire SpecNode SpecLocal SpecCtrl SpecBench SpecLog SpecOut SpecName SpecLbl MapP NameP LblP.

(** C118: devices and other standard objects ... *)
Theorem C118_standard : forall (PS : PySet) a code, set_code 0 a = (code, true) ->
  exists x, l_new_standard a = (x, Ok tt) /\ new_standard a = (lo_obj x, Ok tt) /\ o_name (lo_obj x) = class_name (group_of code) (class_of code) /\
  forall k, says x k (described (group_of code) (class_of code) k).
Proof. exact L_C118_standard. Qed.
Print Assumptions C118_standard.
(** ... and profiles. *)
Theorem C118_profile : forall (PS : PySet) a code, set_code 0 a = (code, true) ->
  exists x, l_new_profile a = (x, Ok tt) /\ new_profile a = (lo_obj x, Ok tt) /\ o_name (lo_obj x) = class_name (group_of code) (class_of code) /\
  forall k, says x k (described (group_of code) (class_of code) k).
Proof. exact L_C118_profile. Qed.
Print Assumptions C118_profile.
(** C118: every property of a standard object is described, and no name is empty. *)
Theorem C118_each : forall (PS : PySet) a code o k, set_code 0 a = (code, true) -> new_standard a = (o, Ok tt) ->
  (get_property k o <> None <-> described (group_of code) (class_of code) k <> None).
Proof. exact L_C118_each. Qed.
Print Assumptions C118_each.
Theorem C118_filled : forall g c k n t z, described g c k = Some (n, t, z) -> n <> ""%string.
Proof. exact L_C118_filled. Qed.
Print Assumptions C118_filled.
(** C118: after any use of the object, and in copies of it. *)
Theorem C118_history : forall (PS : PySet) a code x0 ops x bs, set_code 0 a = (code, true) -> l_new_standard a = (x0, Ok tt) ->
  l_run ops x0 = (x, bs) -> codes_set ops bs -> forall k, says x k (said (described (group_of code) (class_of code)) ops k).
Proof. exact L_C118_history. Qed.
Print Assumptions C118_history.
Theorem C118_object_name : forall (PS : PySet) a code x0 ops x bs, set_code 0 a = (code, true) -> l_new_standard a = (x0, Ok tt) ->
  l_run ops x0 = (x, bs) -> codes_set ops bs -> o_name (lo_obj x) = fold_left name_next ops (class_name (group_of code) (class_of code)).
Proof. exact L_C118_object_name. Qed.
Print Assumptions C118_object_name.
Theorem C118_copy : forall (PS : PySet) a code x0 ops x bs, set_code 0 a = (code, true) -> l_new_standard a = (x0, Ok tt) ->
  l_run ops x0 = (x, bs) -> codes_set ops bs -> lo_obj (l_copy x) = copy_object (lo_obj x) /\ o_name (lo_obj (l_copy x)) = o_name (lo_obj x) /\
  forall k, says (l_copy x) k (said (described (group_of code) (class_of code)) ops k).
Proof. exact L_C118_copy. Qed.
Print Assumptions C118_copy.
(** C118: the objects of found nodes, and what the tools print about them. *)
Theorem C118_found : forall (PS : PySet) w tr s c ms s' tr' rs, ln_ctl s = Some c -> c_found c = [] ->
  Forall (fun m => exists a, received_from a m) ms -> received_all w tr s ms = (s', tr', rs) ->
  exists c', ln_ctl s' = Some c' /\ forall n, In n (ctl_nodes c') -> exists xs, node_objects n = map lo_obj xs /\ Forall standard_made xs.
Proof. exact L_C118_found. Qed.
Print Assumptions C118_found.
Theorem C118_tools : forall (PS : PySet) xs shown i n first, node_objects n = map lo_obj xs -> Forall standard_made xs ->
  Forall (fun o => 0 <= o_code o) (node_objects n) ->
  (forall code k, In (code, k) (mandatory (node_objects n)) -> 0 <= k /\ Forall bytes_ok (shown code k)) ->
  exists ls, l_node_lines i (node_ip n) xs first (map (fun '(code, k) => shown code k) (mandatory (node_objects n))) = (ls, Ok tt) /\ node_block i n first table_name shown ls.
Proof. exact L_C118_tools. Qed.
Print Assumptions C118_tools.
(** The steps of C118 are those of the other files; the two transcriptions of the tables belong together. *)
Theorem C118_same : forall (PS : PySet) a code x0 ops x bs, set_code 0 a = (code, true) -> l_new_standard a = (x0, Ok tt) -> l_run ops x0 = (x, bs) ->
  lo_obj x = fold_left plain_step ops (lo_obj x0).
Proof. exact L_C118_same. Qed.
Print Assumptions C118_same.
Theorem C118_tables : Forall2 same_rows scsl_table scsl_names /\ Forall2 same_rows mra_table mra_names.
Proof. exact L_C118_tables. Qed.
Print Assumptions C118_tables.
(** A lamp that is switched on, gets two properties of the application (one without a name) and becomes an air conditioner. *)
Definition lamp0 : lobj := fst (@l_new_standard pyset_nodup (PInt 0x029101)).
Definition lamp_use : list lop :=
  [OSet 0x80 [0x31]; OAdd (mkoprop 0xF0 [] 1 0 0) None; OAdd (mkoprop 0xB0 [] 1 0 0) (Some ("Mine", "raw", 3)%string); OAdd (mkoprop 0xF1 [] 1 0 0) (Some ("Mine", "raw", 3)%string); OCode (PInt 0x013001)].
Example C118_standard_ex : set_code 0 (PInt 0x029101) = (0x029101, true) /\ prop_name 0xB0 lamp0 = Ok "Light level Setting"%string /\
  prop_typ 0x80 lamp0 = Ok "state"%string /\ prop_size 0x80 lamp0 = Ok 1 /\ prop_name 0xF0 lamp0 = Err AttributeError /\
  o_name (lo_obj lamp0) = "Mono functional lighting"%string /\
  o_name (lo_obj (fst (@l_new_standard pyset_nodup (PInt 0x7F7F01)))) = "Super class"%string.
Proof. vm_compute. repeat split. Qed.
Example C118_profile_ex : prop_name 0xD3 (fst (@l_new_profile pyset_nodup (PInt 0x0EF001))) = Ok "Number of self-node instances"%string.
Proof. vm_compute. reflexivity. Qed.
Example C118_history_ex : let '(x, bs) := @l_run pyset_nodup lamp_use lamp0 in codes_set lamp_use bs /\
  prop_name 0x80 x = Ok "Operation status"%string /\ prop_name 0xF0 x = Err AttributeError /\ prop_name 0xB0 x = Ok "Operation mode setting"%string /\ prop_size 0xF1 x = Ok 3 /\
  prop_size 0xF1 (l_copy x) = Ok 3 /\ prop_name 0xF0 (l_copy x) = Err AttributeError /\ o_name (lo_obj (l_copy x)) = "Home air conditioner"%string.
Proof. vm_compute. split; [repeat constructor|repeat split]. Qed.
Example C118_tools_ex : let x := lamp0 in let n := mknode (Some ("192.168.0.7", 3610)%string) [(0x029101, lo_obj x)] in
  standard_made (PS := pyset_nodup) x /\ node_objects n = map lo_obj [x] /\ mandatory (node_objects n) <> [] /\
  In "[0] [0] 80 (Operation status) 31 "%string (fst (l_node_lines 0 (node_ip n) [x] "" (map (fun _ => [[0x31]]) (mandatory (node_objects n))))).
Proof.
  cbv zeta. split; [exists 0x029101, lamp0, [], []; split; [vm_compute; reflexivity|split; [constructor|reflexivity]]|].
  split; [reflexivity|]. split; [vm_compute; discriminate|]. vm_compute. auto.
Qed.
(** A property without a name makes the tools fail; objects of found nodes have none. *)
Example C118_unnamed_ex : let x := fst (@l_run pyset_nodup [OAdd (mkoprop 0xF0 [] 1 0 0) None] lamp0) in
  snd (l_node_lines 0 "192.168.0.7" [x] "" (map (fun _ => [[0x31]]) (mandatory [lo_obj x]))) = Err AttributeError.
Proof. vm_compute. reflexivity. Qed.
Example C118_found_ex : exists f, received_from ("192.168.0.7", 3610)%string f /\ m_ESV f = 0x73.
Proof.
  exists (mkmsg 1 0x0EF001 0x0EF001 0x73 [mkprop 0xD5 [1; 2; 0x91; 1]] [] [] (Some ("192.168.0.7", 3610)%string) None). split; [|reflexivity].
  exists (mkmsg 1 0x0EF001 0x0EF001 0x73 [mkprop 0xD5 [1; 2; 0x91; 1]] [] [] None None). split; [|reflexivity].
  repeat split; repeat constructor; cbn; try lia; discriminate.
Qed.
(** Objects of the class Object, and profiles later. *)
Theorem C118_plain : forall (PS : PySet) a ops x bs, l_run ops (mklobj (new_object a) []) = (x, bs) ->
  Forall (eq true) bs /\ o_name (lo_obj x) = ""%string /\ o_code (lo_obj x) = fold_left code_next (OCode a :: ops) 0 /\
  lo_obj x = fold_left plain_step ops (new_object a) /\ forall k, says x k (fold_left plain_next ops (fun _ => None) k).
Proof. exact L_C118_plain. Qed.
Print Assumptions C118_plain.
Theorem C118_profile_history : forall (PS : PySet) a code x0 ops x bs, set_code 0 a = (code, true) -> l_new_profile a = (x0, Ok tt) -> l_run ops x0 = (x, bs) ->
  lo_obj x = fold_left plain_step ops (lo_obj x0) /\
  (codes_set ops bs -> o_name (lo_obj x) = fold_left profile_name_next ops (class_name (group_of code) (class_of code)) /\
   forall k, says x k (fold_left profile_next ops (described (group_of code) (class_of code)) k)).
Proof. exact L_C118_profile_history. Qed.
Print Assumptions C118_profile_history.
Theorem C118_results : forall (PS : PySet) a x0 ops x bs,
  x0 = mklobj (new_object a) [] \/ (exists code, set_code 0 a = (code, true) /\ (l_new_standard a = (x0, Ok tt) \/ l_new_profile a = (x0, Ok tt))) ->
  l_run ops x0 = (x, bs) ->
  (forall p l x' r, l_add p l x = (x', r) -> obj_add_property (Some p) (lo_obj x) = (lo_obj x', r)) /\
  (forall c x' r, l_set_code c x = (x', r) -> obj_set_code c (lo_obj x) = (lo_obj x', r)).
Proof. exact L_C118_results. Qed.
Print Assumptions C118_results.
Example C118_plain_ex : let '(x, bs) := @l_run pyset_nodup [OAdd (mkoprop 0xF0 [] 1 0 0) None; OAdd (mkoprop 0xB0 [] 1 0 0) (Some ("Mine", "raw", 3)%string); OCode (PTup [2; 0x191; 1]); OSet 0xB0 [1]; OCode (PTup [1])]
    (mklobj (new_object (PInt 0x013001)) []) in
  bs = repeat true 5 /\ o_code (lo_obj x) = 0x029101 /\ o_name (lo_obj x) = ""%string /\ prop_name 0xB0 x = Ok "Mine"%string /\ prop_name 0xF0 x = Err AttributeError /\ prop_name 0x80 x = Err AttributeError.
Proof. vm_compute. repeat split. Qed.
Definition profile_use : list lop := [OAdd (mkoprop 0xD3 [] 1 0 0) None; OCode (PInt 0x029101); OCode (PInt 0x7F7F01); OAdd (mkoprop 0x80 [] 1 0 0) (Some ("Mine", "raw", 3)%string)].
Example C118_profile_history_ex : let '(x, bs) := @l_run pyset_nodup profile_use (fst (@l_new_profile pyset_nodup (PInt 0x0EF001))) in
  codes_set profile_use bs /\ o_name (lo_obj x) = "Mono functional lighting"%string /\ prop_name 0xD3 x = Err AttributeError /\ prop_name 0xB0 x = Ok "Light level Setting"%string /\
  prop_name 0x80 x = Ok "Mine"%string /\ prop_name 0x9F x <> Err AttributeError.
Proof. vm_compute. split; [repeat constructor|]. repeat split. discriminate. Qed.
Example C118_results_ex : let x := fst (@l_run pyset_nodup [OAdd (mkoprop 0xF0 [] 1 0 0) None] (mklobj (new_object (PInt 0x013001)) [])) in
  snd (@l_add pyset_nodup (mkoprop 0xF1 [] 1 0 0) None x) = Ok true /\ snd (@l_set_code pyset_nodup (PTup [1]) x) = Ok false /\ snd (@l_set_code pyset_nodup (PTup [2; 0x91; 1]) x) = Ok true.
Proof. vm_compute. repeat split. Qed.
