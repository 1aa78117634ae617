(** Property C105: what a controller remembers of the nodes it has found. *)
From Verif Require Import PyBase BytesM MsgM PropM ObjM DbData DbM NodeM LocalM CtrlM
  SpecWire SpecObj SpecReq SpecNode SpecProf SpecLocal SpecCtrl SpecMem MapP NodeP ProfP LocalP AnswerP CtrlP MemP.

Theorem C105_record : forall (PS : PySet) w tr s c ms s' tr' rs, quiet w -> ln_ctl s = Some c -> c_found c = [] ->
  Forall (fun m => exists a, received_from a m) ms -> received_all w tr s ms = (s', tr', rs) ->
  exists c', ln_ctl s' = Some c' /\
  forall w1 t ip, match heard ip ms with
    | None => get_node w1 t c' (GATup ip) = Ok None
    | Some l => exists n, get_node w1 t c' (GATup ip) = Ok (Some n) /\
        forall k o, get_object (PInt k) n = Some o -> as_told (fst (new_standard (PInt k))) (if k =? 0x0EF001 then l else []) o
    end.
Proof. exact L_C105_record. Qed.
Print Assumptions C105_record.
Theorem C105_remembers_partial : forall (PS : PySet) w tr s c ms1 m0 codes ms2 ip s' tr' rs, quiet w -> ln_ctl s = Some c -> c_found c = [] ->
  Forall (fun m => exists a, received_from a m) (ms1 ++ m0 :: ms2) -> received_all w tr s (ms1 ++ m0 :: ms2) = (s', tr', rs) ->
  from_ip m0 = ip -> announces m0 = Some codes -> Forall (fun m => from_ip m = ip -> announces m = None) ms2 ->
  exists c', ln_ctl s' = Some c' /\ forall w1 t, exists n, get_node w1 t c' (GATup ip) = Ok (Some n) /\
  forall o, get_object (PInt 0x0EF001) n = Some o -> as_told (fst (new_standard (PInt 0x0EF001))) (told_by ip (m0 :: ms2)) o.
Proof. exact L_C105_remembers_partial. Qed.
Print Assumptions C105_remembers_partial.
(** Finding: every instance list makes the controller forget all other data of the node. *)
Theorem C105_forgets_refuted : forall (PS : PySet) w tr s c ms m codes s' tr' rs, quiet w -> ln_ctl s = Some c -> c_found c = [] ->
  Forall (fun m => exists a, received_from a m) (ms ++ [m]) -> received_all w tr s (ms ++ [m]) = (s', tr', rs) -> announces m = Some codes ->
  exists c', ln_ctl s' = Some c' /\ forall w1 t, exists n, get_node w1 t c' (GATup (from_ip m)) = Ok (Some n) /\
  forall o p, get_object (PInt 0x0EF001) n = Some o -> last_data p (m_props m) = None ->
  get_property p o = get_property p (fst (new_standard (PInt 0x0EF001))).
Proof. exact L_C105_forgets_refuted. Qed.
Print Assumptions C105_forgets_refuted.
(** Finding: data of devices is never recorded. *)
Theorem C105_devices_refuted : forall (PS : PySet) w tr s c ms s' tr' rs, quiet w -> ln_ctl s = Some c -> c_found c = [] ->
  Forall (fun m => exists a, received_from a m) ms -> received_all w tr s ms = (s', tr', rs) ->
  exists c', ln_ctl s' = Some c' /\ forall w1 t ip n k o p, get_node w1 t c' (GATup ip) = Ok (Some n) ->
  get_object (PInt k) n = Some o -> k <> 0x0EF001 -> get_property p o = get_property p (fst (new_standard (PInt k))).
Proof. exact L_C105_devices_refuted. Qed.
Print Assumptions C105_devices_refuted.
Definition mem_c : lnode := fst (fst (local_start good_os [] (mkln (mknode None []) InTable 1 new_manager (Some (mkctl [] None None [1; 2]%nat))) [])).
Definition mem_ip : addr := ("10.0.0.9"%string, 3610).
Definition mem_list (codes : list Z) : msg :=
  set_from (Some mem_ip) (mkmsg 0 0x0EF001 0x0EF001 0x73 [mkprop 0xD5 (zlen codes :: flat_map (be 3) codes)] [] [] None None).
Definition mem_data (seoj code : Z) (d : list Z) : msg :=
  set_from (Some mem_ip) (mkmsg 0 seoj 0x0EF001 0x72 [mkprop code d] [] [] None None).
Definition mem_hist : list msg :=
  [mem_data 0x0EF001 0x83 [5]; mem_list [0x029101]; mem_data 0x0EF001 0x83 [7]; mem_data 0x029101 0xB0 [1]; mem_data 0x0EF001 0x83 [8]].
Lemma mem_received : Forall (fun m => exists a, received_from a m) (mem_hist ++ [mem_list [0x029101]]).
Proof.
  repeat constructor; eexists; eexists; (split; [|reflexivity]);
    (split; [|split]; [|repeat constructor; unfold byte_ok; cbn; lia|reflexivity]);
    (split; [unfold byte_ok; cbn; lia|]); cbn -[Z.le]; (split; [cbn; lia|]); repeat constructor; try (cbn; lia); unfold byte_ok; cbn; lia.
Qed.
(** The controller remembers the last value, until the next instance list. *)
Example C105_ex : heard "10.0.0.9" mem_hist = Some [mkprop 0xD5 [1; 2; 0x91; 1]; mkprop 0x83 [7]; mkprop 0xB0 [1]; mkprop 0x83 [8]] /\
  heard "10.0.0.9" (mem_hist ++ [mem_list [0x029101]]) = Some [mkprop 0xD5 [1; 2; 0x91; 1]] /\
  exists s' tr' rs c' n o, @received_all pyset_nodup good_os [] mem_c mem_hist = (s', tr', rs) /\ ln_ctl s' = Some c' /\
  ctl_nodes c' = [n] /\ get_object (PInt 0x0EF001) n = Some o /\ data_at o 0x83 = Some [8] /\
  exists s'' tr'' rs' c'' n' o', @received_all pyset_nodup good_os [] mem_c (mem_hist ++ [mem_list [0x029101]]) = (s'', tr'', rs') /\ ln_ctl s'' = Some c'' /\
  ctl_nodes c'' = [n'] /\ get_object (PInt 0x0EF001) n' = Some o' /\ data_at o' 0x83 = Some [].
Proof.
  split; [vm_compute; reflexivity|]. split; [vm_compute; reflexivity|].
  do 6 eexists. split; [vm_compute; reflexivity|]. split; [reflexivity|]. split; [reflexivity|]. split; [vm_compute; reflexivity|]. split; [reflexivity|].
  do 6 eexists. split; [vm_compute; reflexivity|]. split; [reflexivity|]. split; [reflexivity|]. split; vm_compute; reflexivity.
Qed.
