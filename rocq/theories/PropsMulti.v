(** Property C97: several controllers and several devices. *)
From Verif Require Import PyBase MsgM PropM ObjM NodeM LocalM CtrlM
  SpecWire SpecObj SpecReq SpecNode SpecLocal SpecSrv SpecCtrl SpecEnd SpecSess SpecMany SpecMulti MapP NodeP CtrlP AnswerP EndP SessP ManyP MultiP WrapP MultiWP PropsMany.
From Verif Require Import SpecReq.

(** C97: the network behaves as one store per device. *)
Theorem C97_as_stores_partial : forall (PS : PySet) T x l, multi_ready T x -> mrun_ok (mref_start T (length (y_clis x))) l ->
  exists x' o r', mnet_run x l = (x', map (m_returned (multi_tids x)) o) /\ mref_run (mref_start T (length (y_clis x))) l = (r', o) /\
  map y_addr (y_devs x') = map y_addr (y_devs x) /\
  forall v, In v (y_devs x') -> exists St, z_stores r' (y_addr v) = Some St /\ mirrors (y_node v) St.
Proof. exact L_C97_as_stores_partial. Qed.
Print Assumptions C97_as_stores_partial.
(** C97: the reference has one order of all calls, each treated by the device it was made to. *)
Theorem C97_one_order : forall T n l r o, mref_run (mref_start T n) l = (r, o) ->
  (forall a, z_stores r a = option_map (fun St => store_run St (calls_to a (z_log r))) (T a)) /\
  NoDup (map fst (z_posts r)) /\ NoDup (map fst (z_log r)) /\ incl (z_log r) (z_posts r) /\
  forall t an code a, In (t, Some (an, (code, a))) o ->
    exists l1 k l2 St, z_log r = l1 ++ (t, (an, (code, k))) :: l2 /\ T an = Some St /\ store_reply (store_run St (calls_to an l1)) code k = Some a.
Proof. exact L_C97_one_order. Qed.
Print Assumptions C97_one_order.
Theorem C97_real_time : forall T n l1 l2 r1 o1 r2 o2, mref_run (mref_start T n) l1 = (r1, o1) -> mref_run r1 l2 = (r2, o2) ->
  exists ps, z_posts r2 = z_posts r1 ++ ps /\
  forall t an code a t' c', In (t, Some (an, (code, a))) o1 -> In (t', c') ps -> In (t', c') (z_log r2) ->
  exists k la lb lc, z_log r2 = la ++ (t, (an, (code, k))) :: lb ++ (t', c') :: lc.
Proof. exact L_C97_real_time. Qed.
Print Assumptions C97_real_time.
(** C97: a call returns only messages of the device and the object it was made to. *)
Theorem C97_own_device_partial : forall (PS : PySet) T x l x' o, multi_ready T x -> mrun_ok (mref_start T (length (y_clis x))) l -> mnet_run x l = (x', o) ->
  forall i m, In (i, Some m) o -> exists p code k, In (MPost i p code k) l /\ dest_addr p = m_from m /\ m_SEOJ m = code.
Proof. exact L_C97_own_device_partial. Qed.
Print Assumptions C97_own_device_partial.
(** Two devices with the same objects and two controllers with the same TIDs. *)
Definition wx_addr2 : addr := ("10.0.0.19"%string, 3610).
Definition wx_ctl : lnode :=
  fst (fst (local_start good_os [] (mkln (mknode None []) InTable 1 new_manager
    (Some (mkctl [("10.0.0.9"%string, mknode (Some dev_addr) []); ("10.0.0.19"%string, mknode (Some wx_addr2) [])] None None []))) [])).
Definition wx_stores : addr -> option store := fun a => if addr_eqb a dev_addr || addr_eqb a wx_addr2 then Some yx_store else None.
Definition wx_net : mnet := mkmnet [mkpeer good_os dev_addr 2 shelf_node [] false; mkpeer good_os wx_addr2 2 shelf_node [] false]
  [mkpeer good_os ctl_addr 2 wx_ctl [] false; mkpeer good_os ("10.0.0.7"%string, 3610) 2 wx_ctl [] false] [] [].
(** The first controller writes to one device and then reads from both; the second writes to the other.
    The answer of the first device comes after the first call has returned and arrives during the second. *)
Definition wx_events : list mevent :=
  [MPost 0 (DNode (mknode (Some dev_addr) [])) 0x029101 (KWrite [mkprop 0x80 [0x31]]); MPost 1 (DTup wx_addr2) 0x029101 (KWrite [mkprop 0x80 [0x41]]);
   MServe 0; MReturn 0; MPost 0 (DTup wx_addr2) 0x029101 (KRead [0x80]); MAnswer 0; MServe 1; MServe 0; MAnswer 1; MAnswer 0; MReturn 1; MReturn 0;
   MPost 0 (DTup dev_addr) 0x029101 (KRead [0x80; 0xD5]); MPost 1 (DTup ("10.0.0.33"%string, 3610)) 0x029101 (KRead [0x80]); MServe 0; MReturn 1; MAnswer 0; MReturn 0].
Example C97_ex :
  multi_ready wx_stores wx_net /\ mrun_ok (mref_start wx_stores 2) wx_events /\
  snd (@mnet_run pyset_nodup wx_net wx_events) =
  [(0%nat, None);
   (1%nat, Some (mkmsg 1 0x029101 0x0EF001 0x71 [mkprop 0x80 []] [] [] (Some wx_addr2) None));
   (0%nat, Some (mkmsg 2 0x029101 0x0EF001 0x72 [mkprop 0x80 [0x30]] [] [] (Some wx_addr2) None));
   (1%nat, None);
   (0%nat, Some (mkmsg 3 0x029101 0x0EF001 0x72 [mkprop 0x80 [0x31]; mkprop 0xD5 [1]] [] [] (Some dev_addr) None))] /\
  map fst (z_log (fst (mref_run (mref_start wx_stores 2) wx_events))) = [mktag 0 1; mktag 0 2; mktag 1 1; mktag 0 3].
Proof.
  split.
  { assert (O : online wx_ctl 2 /\ online shelf_node 2).
    { split; (split; [vm_compute; discriminate|eexists; split; [vm_compute; reflexivity|split; reflexivity]]). }
    assert (R : forall a, ready_ctl (y_devs wx_net) (mkpeer good_os a 2 wx_ctl [] false)).
    { intros a. split; [exact good_quiet|]. split; [exact good_reliable|]. split; [apply O|]. split; [vm_compute; discriminate|]. split; [|split; [vm_compute; split; discriminate|reflexivity]].
      intros v [<-|[<-|[]]]; (do 2 eexists; split; vm_compute; reflexivity). }
    assert (D : forall a, a = dev_addr \/ a = wx_addr2 -> ready_dev wx_stores (mkpeer good_os a 2 shelf_node [] false)).
    { intros a H. split; [exact good_quiet|]. split; [exact good_reliable|]. split; [apply O|]. split; [vm_compute; reflexivity|]. exists yx_store. split; [destruct H as [-> | ->]; reflexivity|]. split; [exact yx_mirrors|exact yx_store_ok]. }
    split; [exact (Forall_cons _ (R _) (Forall_cons _ (R _) (Forall_nil _)))|].
    split; [exact (Forall_cons _ (D _ (or_introl eq_refl)) (Forall_cons _ (D _ (or_intror eq_refl)) (Forall_nil _)))|].
    split; [repeat constructor; cbn; intuition discriminate|]. split; [repeat constructor; cbn; intuition discriminate|]. split; [|split; reflexivity].
    intros a. unfold wx_stores. destruct (addr_eqb a dev_addr) eqn:E1; [apply aeqb_eq in E1; intros _; subst a; left; reflexivity|]. destruct (addr_eqb a wx_addr2) eqn:E2; [apply aeqb_eq in E2; intros _; subst a; right; left; reflexivity|]. intros H. exfalso. apply H. reflexivity. }
  split.
  { assert (P : forall k : call, (exists d, k = KWrite [mkprop 0x80 [d]] /\ 0 <= d < 256) \/ k = KRead [0x80] \/ k = KRead [0x80; 0xD5] -> post_ok 0x029101 k).
    { intros k H. destruct H as [(d & -> & D)|[-> | ->]]; (split; [lia|]; split; [split; [unfold byte_ok; cbn; lia|split; [cbn; lia|repeat constructor; unfold byte_ok; cbn; lia]]|]; split; [repeat constructor; unfold byte_ok; cbn; lia|]; split; [constructor|]; vm_compute; lia). }
    assert (Q : forall St k, post_ok 0x029101 k -> match St 0x029101 with None => True | Some t =>
      match reply t k with Some (e, ps, ss, gs) => let a := mkmsg 0 0 0 e ps ss gs None None in (length (wire a) <= 1024)%nat /\ (e = 0x72 -> empty_list a = false) | None => True end /\
      match k with KWriteRead _ cs => forallb (known t) cs = true | _ => True end end -> call_ok St 0x029101 k).
    { intros St k (A & B & C & D & E) F. exact (conj A (conj B (conj C (conj D (conj E F))))). }
    unfold wx_events.
    repeat match goal with
    | |- mrun_ok _ [] => exact Logic.I
    | |- mrun_ok ?r (?e :: ?l) => change (mevent_ok r e /\ mrun_ok (fst (mref_step r e)) l); split
    | |- mevent_ok _ (MPost _ _ _ _) => split; [apply P; first [left; eexists; split; [reflexivity|lia]|right; left; reflexivity|right; right; reflexivity]|split; [discriminate|vm_compute; reflexivity]]
    | |- mevent_ok ?r (MServe ?j) =>
        let q := eval vm_compute in (nth_error (z_reqs r) j) in
        match q with
        | Some (_, (?a, (?code, ?k))) =>
            let T := eval vm_compute in (z_stores r a) in
            match T with Some ?St => change (call_ok St code k) end
        end;
        apply Q; [apply P; first [left; eexists; split; [reflexivity|lia]|right; left; reflexivity|right; right; reflexivity]|vm_compute; repeat split; try discriminate; lia]
    | |- mevent_ok _ _ => exact Logic.I
    end. }
  split; vm_compute; reflexivity.
Qed.
(** C97: a message returned by a call is of the device and the object of that very call. *)
Theorem C97_same_call_partial : forall (PS : PySet) T x l1 i p code k l2 x1 o1 c x2 o2 x3 m, multi_ready T x ->
  mrun_ok (mref_start T (length (y_clis x))) (l1 ++ MPost i p code k :: l2 ++ [MReturn i]) -> ~ In (MReturn i) l2 ->
  mnet_run x l1 = (x1, o1) -> nth_error (y_clis x1) i = Some c -> y_busy c = false ->
  mnet_run x1 (MPost i p code k :: l2) = (x2, o2) -> mnet_step x2 (MReturn i) = (x3, [(i, Some m)]) ->
  m_from m = dest_addr p /\ m_SEOJ m = code.
Proof. exact L_C97_same_call_partial. Qed.
Print Assumptions C97_same_call_partial.
(** C97: the 65536th call, made to one device, returns what another device said about the first. *)
Theorem C97_wraparound_refuted : forall (PS : PySet) T x i c p an St code k a p' an' code' k' n,
  multi_ready T x -> nth_error (y_clis x) i = Some c -> dest_addr p = Some an -> T an = Some St ->
  post_ok code k -> call_ok St code k -> store_reply St code k = Some a ->
  post_ok code' k' -> dest_addr p' = Some an' -> an' <> an -> Z.of_nat n = 65534 ->
  let before := [MPost i p code k; MServe 0; MReturn i] ++ concat (repeat [MPost i p code k; MLoseRequest 0; MReturn i] n) in
  let last := [MPost i p' code' k'; MAnswer 0; MReturn i] in
  mrun_ok (mref_start T (length (y_clis x))) before /\
  exists x' m, mnet_run x (before ++ last) = (x', repeat (i, None) (S n) ++ [(i, Some m)]) /\
    (i, Some m) = m_returned (multi_tids x) (mktag i 1, Some (an, (code, a))) /\ m_from m = Some an /\ m_from m <> dest_addr p'.
Proof. exact L_C97_wraparound_refuted. Qed.
Print Assumptions C97_wraparound_refuted.
(** A write to the second device is answered by the first, with what a read 65535 calls before gave. *)
Example C97_wraparound_ex : exists n x', Z.of_nat n = 65534 /\
  @mnet_run pyset_nodup wx_net
    (([MPost 0 (DTup dev_addr) 0x029101 (KRead [0x80]); MServe 0; MReturn 0] ++ concat (repeat [MPost 0 (DTup dev_addr) 0x029101 (KRead [0x80]); MLoseRequest 0; MReturn 0] n)) ++
     [MPost 0 (DTup wx_addr2) 0x029101 (KWrite [mkprop 0x80 [0x31]]); MAnswer 0; MReturn 0]) =
  (x', repeat (0%nat, None) (S n) ++ [(0%nat, Some (mkmsg 1 0x029101 0x0EF001 0x72 [mkprop 0x80 [0x30]] [] [] (Some dev_addr) None))]).
Proof.
  destruct (Z_of_nat_complete 65534 ltac:(lia)) as (n & N). exists n.
  assert (Pr : post_ok 0x029101 (KRead [0x80])).
  { split; [lia|]. split; [split; [unfold byte_ok; cbn; lia|split; [cbn; lia|repeat constructor; unfold byte_ok; cbn; lia]]|]. split; [repeat constructor; unfold byte_ok; cbn; lia|]. split; [constructor|cbn; lia]. }
  assert (Pw : post_ok 0x029101 (KWrite [mkprop 0x80 [0x31]])).
  { split; [lia|]. split; [split; [unfold byte_ok; cbn; lia|split; [cbn; lia|repeat constructor; unfold byte_ok; cbn; lia]]|]. split; [repeat constructor; unfold byte_ok; cbn; lia|]. split; [constructor|cbn; lia]. }
  assert (Cr : call_ok yx_store 0x029101 (KRead [0x80])).
  { destruct Pr as (A & B & C & D & E). split; [exact A|]. split; [exact B|]. split; [exact C|]. split; [exact D|]. split; [exact E|]. vm_compute. repeat split; try discriminate; lia. }
  destruct (C97_wraparound_refuted pyset_nodup wx_stores wx_net 0 (mkpeer good_os ctl_addr 2 wx_ctl [] false) (DTup dev_addr) dev_addr yx_store 0x029101 (KRead [0x80]) (0x72, [mkprop 0x80 [0x30]], [], [])
    (DTup wx_addr2) wx_addr2 0x029101 (KWrite [mkprop 0x80 [0x31]]) n (proj1 C97_ex) eq_refl eq_refl eq_refl Pr Cr eq_refl Pw eq_refl ltac:(discriminate) (eq_sym N)) as (_ & x' & m & E & M & _).
  exists x'. split; [exact (eq_sym N)|]. rewrite E. rewrite M. reflexivity.
Qed.
