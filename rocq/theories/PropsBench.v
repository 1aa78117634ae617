(** Property C81: what uechobench.py and uechosearch.py show of a node. *)
From Verif Require Import PyBase MsgM PropM ObjM NodeM LocalM CtrlM BenchM
  SpecWire SpecObj SpecReq SpecNode SpecLocal SpecSrv SpecCtrl SpecEnd SpecSess SpecBench MapP NodeP EndP SessP BenchP.
From Verif Require Import SpecReq.

Theorem C81_shown_partial : forall (PS : PySet) wc wd jc jd ac an n S z x,
  quiet wc -> reliable wc -> quiet wd -> reliable wd -> dest_addr (DNode n) = Some an ->
  joined jc jd an x -> mirrors (x_dev x) S -> store_ok S ->
  (forall code k, In (code, k) (mandatory (node_objects n)) -> call_ok S code (KRead [k])) ->
  exists x', tool_node wc wd jc jd ac an n z x = (x', Ok (map (fun '(code, k) => on_screen S code k) (mandatory (node_objects n)))) /\
  joined jc jd an x' /\ mirrors (x_dev x') S.
Proof. exact L_C81_shown_partial. Qed.
Print Assumptions C81_shown_partial.
Theorem C81_empty_list_refuted : exists wc wd jc jd ac an n S z x,
  quiet wc /\ reliable wc /\ quiet wd /\ reliable wd /\ dest_addr (DNode n) = Some an /\ joined jc jd an x /\ mirrors (x_dev x) S /\ store_ok S /\
  mandatory (node_objects n) = [(0x029101, 0xD5); (0x029101, 0x80)] /\ on_screen S 0x029101 0x80 = [[0x30]] /\
  exists (PS : PySet) x', tool_node wc wd jc jd ac an n z x = (x', Ok [[]; []]).
Proof. exact L_C81_empty_list_refuted. Qed.
Print Assumptions C81_empty_list_refuted.
(** A device with one object; the controller believes in two. *)
Definition bx_obj : obj := mkobj 0x029101 "" [(0x80, mkoprop 0x80 [0x30] 1 1 1); (0xB0, mkoprop 0xB0 [7; 8] 0 1 0)] HSuper 0 [] CObject.
Definition bx_dev : lnode := fst (fst (local_start good_os [] (mkln (mknode None [(0x029101, bx_obj)]) InTable 1 new_manager None) [])).
Definition bx_node : node := mknode (Some dev_addr)
  [(0x029101, mkobj 0x029101 "" [(0x80, mkoprop 0x80 [] 1 1 1); (0x81, mkoprop 0x81 [] 1 1 1); (0x82, mkoprop 0x82 [] 2 1 1); (0xB0, mkoprop 0xB0 [] 1 1 0)] HSuper 0 [] CObject);
   (0x029102, mkobj 0x029102 "" [(0x80, mkoprop 0x80 [] 1 1 1)] HSuper 0 [] CObject)].
Definition bx_table : table := fun c => if c =? 0x80 then Some (mkcell [0x30] true true) else if c =? 0xB0 then Some (mkcell [7; 8] false true) else None.
Definition bx_store : store := fun code => if code =? 0x029101 then Some bx_table else None.
Definition bx_world : world := mkworld finder [] bx_dev [].
Definition bx_when (i : nat) : arrival := match i with O => Late | 1%nat => Middle | _ => Early end.

Lemma bx_mirrors : mirrors bx_dev bx_store.
Proof.
  intros code. assert (L : ln_objs bx_dev = [(0x029101, bx_obj)]) by (vm_compute; reflexivity). rewrite L. unfold bx_store. cbn [dget]. destruct (code =? 0x029101); [|exact Logic.I].
  split; [now left|]. split.
  - intros c p H. unfold get_property in H. cbn in H. destruct (c =? 0x80) eqn:E1; [assert (p = mkoprop 0x80 [0x30] 1 1 1) as -> by congruence; cbn; apply Z.eqb_eq in E1; congruence|].
    destruct (c =? 0xB0) eqn:E2; [assert (p = mkoprop 0xB0 [7; 8] 0 1 0) as -> by congruence; cbn; apply Z.eqb_eq in E2; congruence|discriminate].
  - intros c. unfold get_property, bx_table. cbn. destruct (c =? 0x80); [reflexivity|]. destruct (c =? 0xB0); reflexivity.
Qed.
(** The conditions of the theorem hold, and the screen shows the status, nothing for a property the
    device does not have or does not let be read, and no answer for the second object. *)
Example C81_ex :
  joined 2 2 dev_addr bx_world /\ mirrors (x_dev bx_world) bx_store /\ store_ok bx_store /\
  (forall code k, In (code, k) (mandatory (node_objects bx_node)) -> call_ok bx_store code (KRead [k])) /\
  mandatory (node_objects bx_node) = [(0x029101, 0x80); (0x029101, 0x81); (0x029101, 0xB0); (0x029102, 0x80)] /\
  snd (@tool_node pyset_nodup good_os good_os 2 2 ctl_addr dev_addr bx_node bx_when bx_world) = Ok [[[0x30]]; [[]]; [[]]; []].
Proof.
  split.
  { assert (O : online finder 2 /\ online bx_dev 2).
    { split; (split; [vm_compute; discriminate|eexists; split; [vm_compute; reflexivity|split; reflexivity]]). }
    split; [apply O|]. split; [do 2 eexists; split; vm_compute; reflexivity|]. split; [vm_compute; split; discriminate|]. split; [apply O|vm_compute; reflexivity]. }
  split; [exact bx_mirrors|]. split.
  { intros code t c l. unfold bx_store. destruct (code =? 0x029101); [|discriminate]. intros E. assert (t = bx_table) as -> by congruence. unfold bx_table.
    destruct (c =? 0x80); [intros E2; assert (l = mkcell [0x30] true true) as -> by congruence|destruct (c =? 0xB0); [|discriminate]; intros E2; assert (l = mkcell [7; 8] false true) as -> by congruence];
      (split; [repeat constructor; unfold byte_ok; cbn; lia|cbn; lia]). }
  split.
  { intros code k. cbn [mandatory node_objects bx_node n_objs dvals map snd flat_map filter o_props o_code op_get op_code Z.eqb Pos.eqb app In]. intros H.
    repeat destruct H as [H|H]; [..|contradiction]; injection H as <- <-;
      (split; [lia|]; split; [split; [unfold byte_ok; cbn; lia|split; [cbn; lia|repeat constructor; unfold byte_ok; cbn; lia]]|]; split; [repeat constructor|]; split; [constructor|]; split; [vm_compute; lia|]; cbn; repeat split; lia). }
  split; [reflexivity|]. vm_compute. reflexivity.
Qed.
