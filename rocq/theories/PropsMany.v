(** Property C82: several controllers and one device. *)
From Verif Require Import PyBase MsgM PropM ObjM NodeM LocalM CtrlM
  SpecWire SpecObj SpecReq SpecNode SpecLocal SpecSrv SpecCtrl SpecEnd SpecSess SpecMany MapP NodeP CtrlP AnswerP EndP SessP ManyP.
From Verif Require Import SpecReq.

Theorem C82_as_store_partial : forall (PS : PySet) wd jd an St x l,
  quiet wd -> reliable wd -> all_ready jd an St x -> run_ok (ref_start St (length (w_clis x))) l ->
  exists x' o r', net_run wd jd an x l = (x', map (as_returned an (start_tids x)) o) /\
  ref_run (ref_start St (length (w_clis x))) l = (r', o) /\ mirrors (w_dev x') (v_store r').
Proof. exact L_C82_as_store_partial. Qed.
Print Assumptions C82_as_store_partial.
Theorem C82_one_order : forall St n l r o, ref_run (ref_start St n) l = (r, o) ->
  v_store r = store_run St (map snd (v_log r)) /\
  NoDup (map fst (v_posts r)) /\ NoDup (map fst (v_log r)) /\ incl (v_log r) (v_posts r) /\
  forall t code a, In (t, Some (code, a)) o ->
    exists l1 k l2, v_log r = l1 ++ (t, (code, k)) :: l2 /\ store_reply (store_run St (map snd l1)) code k = Some a.
Proof. exact L_C82_one_order. Qed.
Print Assumptions C82_one_order.
Theorem C82_real_time : forall St n l1 l2 r1 o1 r2 o2, ref_run (ref_start St n) l1 = (r1, o1) -> ref_run r1 l2 = (r2, o2) ->
  exists ps, v_posts r2 = v_posts r1 ++ ps /\
  forall t code a t' c', In (t, Some (code, a)) o1 -> In (t', c') ps -> In (t', c') (v_log r2) ->
  exists k la lb lc, v_log r2 = la ++ (t, (code, k)) :: lb ++ (t', c') :: lc.
Proof. exact L_C82_real_time. Qed.
Print Assumptions C82_real_time.
(** Two controllers with the same TIDs and a device. *)
Definition yx_table : table := fun c => if c =? 0x80 then Some (mkcell [0x30] true true) else if c =? 0xD5 then Some (mkcell [1] true true) else None.
Definition yx_store : store := fun code => if code =? 0x029101 then Some yx_table else None.
Definition yx_cli (a : addr) : cli := mkcli good_os a (DNode (mknode (Some dev_addr) [])) 2 finder [] false.
Definition yx_net : net := mknet shelf_node [] [yx_cli ctl_addr; yx_cli ("10.0.0.7"%string, 3610)] [] [].
Lemma yx_mirrors : mirrors shelf_node yx_store.
Proof.
  intros code. assert (L : ln_objs shelf_node = [(0x029101, shelf)]) by (vm_compute; reflexivity). rewrite L. unfold yx_store. cbn [dget]. destruct (code =? 0x029101); [|exact Logic.I].
  split; [now left|]. split; [exact (proj1 (proj2 shelf_fitting))|].
  intros c. unfold get_property, yx_table. cbn. destruct (c =? 0x80); [reflexivity|]. destruct (c =? 0xD5); reflexivity.
Qed.
Lemma yx_store_ok : store_ok yx_store.
Proof.
  intros code t c l. unfold yx_store. destruct (code =? 0x029101); [|discriminate]. intros E. assert (t = yx_table) as -> by congruence. unfold yx_table.
  destruct (c =? 0x80); [intros E2; assert (l = mkcell [0x30] true true) as -> by congruence|destruct (c =? 0xD5); [|discriminate]; intros E2; assert (l = mkcell [1] true true) as -> by congruence];
    (split; [repeat constructor; unfold byte_ok; cbn; lia|cbn; lia]).
Qed.
(** The read of the second controller overtakes the write of the first, the answers arrive in the
    other order, the answer to the second write is lost and the first controller reads again. *)
Definition yx_events : list event :=
  [EPost 0 0x029101 (KWrite [mkprop 0x80 [0x31]]); EPost 1 0x029101 (KRead [0x80]); EServe 1; EServe 0; EAnswer 1; EReturn 0; EAnswer 0; EReturn 1;
   EPost 1 0x029101 (KWrite [mkprop 0x80 [0x41]]); EServe 0; ELoseAnswer 0; EPost 0 0x029101 (KRead [0x80; 0xD5]); EServe 0; EReturn 1; EAnswer 0; EReturn 0].
Example C82_ex :
  all_ready 2 dev_addr yx_store yx_net /\ run_ok (ref_start yx_store 2) yx_events /\
  snd (@net_run pyset_nodup good_os 2 dev_addr yx_net yx_events) =
  [(0%nat, Some (mkmsg 1 0x029101 0x0EF001 0x71 [mkprop 0x80 []] [] [] (Some dev_addr) None));
   (1%nat, Some (mkmsg 1 0x029101 0x0EF001 0x72 [mkprop 0x80 [0x30]] [] [] (Some dev_addr) None));
   (1%nat, None);
   (0%nat, Some (mkmsg 2 0x029101 0x0EF001 0x72 [mkprop 0x80 [0x41]; mkprop 0xD5 [1]] [] [] (Some dev_addr) None))] /\
  map fst (v_log (fst (ref_run (ref_start yx_store 2) yx_events))) = [mktag 1 1; mktag 0 1; mktag 1 2; mktag 0 2].
Proof.
  split.
  { assert (O : online finder 2 /\ online shelf_node 2).
    { split; (split; [vm_compute; discriminate|eexists; split; [vm_compute; reflexivity|split; reflexivity]]). }
    assert (R : forall a, ready_cli dev_addr (yx_cli a)).
    { intros a. split; [exact good_quiet|]. split; [exact good_reliable|]. split; [reflexivity|]. split; [apply O|]. split; [do 2 eexists; split; vm_compute; reflexivity|]. split; [vm_compute; split; discriminate|reflexivity]. }
    split; [exact (Forall_cons _ (R _) (Forall_cons _ (R _) (Forall_nil _)))|].
    split; [repeat constructor; cbn; intuition discriminate|]. split; [reflexivity|]. split; [reflexivity|]. split; [apply O|]. split; [vm_compute; reflexivity|]. split; [exact yx_mirrors|exact yx_store_ok]. }
  split.
  { assert (P : forall k : call, (exists d, k = KWrite [mkprop 0x80 [d]] /\ 0 <= d < 256) \/ k = KRead [0x80] \/ k = KRead [0x80; 0xD5] -> post_ok 0x029101 k).
    { intros k H. destruct H as [(d & -> & D)|[-> | ->]]; (split; [lia|]; split; [split; [unfold byte_ok; cbn; lia|split; [cbn; lia|repeat constructor; unfold byte_ok; cbn; lia]]|]; split; [repeat constructor; unfold byte_ok; cbn; lia|]; split; [constructor|]; vm_compute; lia). }
    assert (Q : forall St k, post_ok 0x029101 k -> match St 0x029101 with None => True | Some t =>
      match reply t k with Some (e, ps, ss, gs) => let a := mkmsg 0 0 0 e ps ss gs None None in (length (wire a) <= 1024)%nat /\ (e = 0x72 -> empty_list a = false) | None => True end /\
      match k with KWriteRead _ cs => forallb (known t) cs = true | _ => True end end -> call_ok St 0x029101 k).
    { intros St k (A & B & C & D & E) F. exact (conj A (conj B (conj C (conj D (conj E F))))). }
    unfold yx_events.
    repeat match goal with
    | |- run_ok _ [] => exact Logic.I
    | |- run_ok ?r (?e :: ?l) => change (event_ok r e /\ run_ok (fst (ref_step r e)) l); split; [|let r' := eval vm_compute in (fst (ref_step r e)) in change (run_ok r' l)]
    | |- event_ok _ (EPost _ _ _) => split; [apply P; first [left; eexists; split; [reflexivity|lia]|right; left; reflexivity|right; right; reflexivity]|vm_compute; reflexivity]
    | |- event_ok ?r (EServe ?j) => let q := eval vm_compute in (nth_error (v_reqs r) j) in change (match q with Some (_, (code, k)) => call_ok (v_store r) code k | None => True end);
        cbv iota beta; apply Q; [apply P; first [left; eexists; split; [reflexivity|lia]|right; left; reflexivity|right; right; reflexivity]|vm_compute; repeat split; try discriminate; lia]
    | |- event_ok _ _ => exact Logic.I
    end. }
  split; vm_compute; reflexivity.
Qed.
