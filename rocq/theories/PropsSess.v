(** Property C67: a session of a controller with a device behaves as a store. *)
From Verif Require Import PyBase BytesM EsvM MsgM PropM ObjM DbData DbM NodeM LocalM CtrlM
  SpecWire SpecObj SpecReq SpecNode SpecProf SpecLocal SpecSrv SpecCtrl SpecEnd SpecSess MapP NodeP ProfP LocalP AnswerP CtrlP EndP SessP.
From Verif Require Import SpecReq.

Theorem C67_session_partial : forall (PS : PySet) wc wd jc jd ac an d x S l,
  quiet wc -> reliable wc -> quiet wd -> reliable wd -> dest_addr d = Some an ->
  joined jc jd an x -> mirrors (x_dev x) S -> store_ok S -> session_ok S l ->
  exists x', client wc wd jc jd ac an d l x = (x', replies an (next_tid (x_ctl x)) S l) /\
  joined jc jd an x' /\ mirrors (x_dev x') (store_run S l).
Proof. exact L_C67_session_partial. Qed.
Print Assumptions C67_session_partial.
(** A lamp with three properties and an object that refuses writes; a session with accepted, refused
    and unanswered calls, one of them to an object the device does not have. *)
Definition sx_lamp : obj := mkobj 0x029101 "" [(0x80, mkoprop 0x80 [0x30] 1 1 1); (0xB0, mkoprop 0xB0 [] 1 2 0); (0x88, mkoprop 0x88 [0x42] 1 0 1)] HSuper 0 [] CObject.
Definition sx_meter : obj := mkobj 0x028801 "" [(0xE0, mkoprop 0xE0 [0; 0; 1; 2] 1 1 0)] HReadOnly 0 [] CObject.
Definition sx_dev : lnode := fst (fst (local_start good_os [] (mkln (mknode None [(0x029101, sx_lamp); (0x028801, sx_meter)]) InTable 1 new_manager None) [])).
Definition sx_world : world := mkworld finder [] sx_dev [].
Definition sx_table (o : obj) : table := fun c => option_map (cell_of (o_handler o)) (get_property c o).
Definition sx_store : store := fun k => option_map sx_table (zget k (ln_objs sx_dev)).
Definition sx_calls : list (Z * call) :=
  [(0x029101, KWrite [mkprop 0x80 [0x31]; mkprop 0xB0 [7; 8]]);
   (0x029101, KRead [0xB0; 0x80]);
   (0x029101, KPost [mkprop 0x80 [0x30]]);
   (0x028801, KWrite [mkprop 0xE0 [9]]);
   (0x029101, KWriteRead [mkprop 0x88 [1]; mkprop 0xB0 [5]] [0x80; 0xB0; 0x88]);
   (0x013001, KRead [0x80]);
   (0x028801, KRead [0xE0; 0xE1])].
Example C67_premises : joined 2 2 dev_addr sx_world /\ mirrors sx_dev sx_store /\ store_ok sx_store /\ session_ok sx_store sx_calls.
Proof.
  assert (O : online finder 2 /\ online sx_dev 2).
  { split; (split; [vm_compute; discriminate|eexists; split; [vm_compute; reflexivity|split; reflexivity]]). }
  assert (Z : forall k, zget k (ln_objs sx_dev) = if k =? 0x029101 then Some sx_lamp else if k =? 0x028801 then Some sx_meter else None).
  { intros k. reflexivity. }
  assert (F : forall o, o = sx_lamp \/ o = sx_meter -> builtin (o_handler o) /\ wf_obj o /\ forall c p, get_property c o = Some p -> bytes_ok (op_data p) /\ zlen (op_data p) <= 255).
  { intros o Ho. split; [destruct Ho as [-> | ->]; [now left|now right]|]. split; intros c p G; destruct Ho as [-> | ->]; unfold get_property in G; cbn in G;
    repeat match type of G with (if ?b then _ else _) = _ => destruct b eqn:?; [injection G as <-|] end; try discriminate; cbn [op_code op_data];
    try (symmetry; apply Z.eqb_eq; assumption); (split; [repeat constructor; unfold byte_ok; lia|unfold zlen; cbn; lia]). }
  split. { split; [apply O|]. split; [do 2 eexists; split; vm_compute; reflexivity|]. split; [vm_compute; split; discriminate|]. split; [apply O|]. reflexivity. }
  split. { intros k. unfold sx_store. rewrite Z. destruct (k =? 0x029101); [|destruct (k =? 0x028801); [|exact Logic.I]]; cbn [option_map];
    [destruct (F sx_lamp (or_introl eq_refl)) as (A & B & _)|destruct (F sx_meter (or_intror eq_refl)) as (A & B & _)]; (split; [exact A|]; split; [exact B|]; intros c; reflexivity). }
  split. { intros k t c l Hs Ht. unfold sx_store in Hs. rewrite Z in Hs.
    assert (exists o, (o = sx_lamp \/ o = sx_meter) /\ t = sx_table o) as (o & Ho & ->).
    { destruct (k =? 0x029101); [|destruct (k =? 0x028801); [|discriminate]]; eexists; (split; [|injection Hs as <-; reflexivity]); auto. }
    unfold sx_table in Ht. destruct (get_property c o) as [p|] eqn:G; [|discriminate]. injection Ht as <-. destruct (F o Ho) as (_ & _ & K). exact (K c p G). }
  unfold sx_calls. cbn [session_ok]. repeat match goal with |- call_ok _ _ _ /\ _ => split end; try exact Logic.I;
  (split; [lia|]; split; [split; [unfold byte_ok; cbn; lia|vm_compute; repeat split; repeat constructor; discriminate]|];
   split; [repeat constructor; unfold byte_ok; lia|]; split; [repeat constructor; unfold byte_ok; lia|]; split; [apply Nat.leb_le; vm_compute; reflexivity|];
   vm_compute; repeat split; try discriminate; try lia).
Qed.
Example C67_ex :
  map (option_map (fun m => (m_TID m, m_ESV m, map p_data (m_props m ++ m_sets m ++ m_gets m))))
    (snd (@client pyset_nodup good_os good_os 2 2 ctl_addr dev_addr (DNode (mknode (Some dev_addr) [])) sx_calls sx_world)) =
  [Some (1, 0x71, [[]; []]); Some (2, 0x72, [[7; 8]; [0x31]]); None; Some (4, 0x50, [[9]]);
   Some (5, 0x5E, [[1]; []; [0x30]; [5]; [0x42]]); None; Some (7, 0x52, [[0; 0; 1; 2]; []])].
Proof. vm_compute. reflexivity. Qed.
