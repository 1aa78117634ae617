(** Property C109: what observers of objects are told. *)
From Verif Require Import PyBase BytesM MsgM PropM ObjM NodeM LocalM CtrlM SpecWire SpecReq SpecNode SpecLocal SpecSrv SpecTell NodeP MapP TellP.

(** C109: of one message, those whom it concerns; fewer only after an exception of an observer, and then
    nothing has happened to the node. *)
Theorem C109_message : forall (PS : PySet) w tr s a m s' tr' r, received_from a m -> node_received w tr s m = (s', tr', r) ->
  exists evs rest, tr' = tr ++ evs /\ concerned s m = obj_told evs ++ rest /\
    (quiet w -> rest = []) /\ (rest <> [] -> s' = s /\ exists e, r = Err e).
Proof. exact L_C109_message. Qed.
Print Assumptions C109_message.
(** C109: of a sequence of messages, whatever the node did with each. *)
Theorem C109_messages : forall (PS : PySet) w ms s tr s' tr' rs, quiet w -> Forall (fun m => exists a, received_from a m) ms ->
  received_all w tr s ms = (s', tr', rs) ->
  exists evs, tr' = tr ++ evs /\ obj_told evs = flat_map (concerned s) ms.
Proof. exact L_C109_messages. Qed.
Print Assumptions C109_messages.
(** C109: of arriving datagrams, for every node, controllers included. *)
Theorem C109_datagrams : forall (PS : PySet) w l s tr, quiet w -> node_first s -> Forall (fun x => bytes_ok (fst (snd x))) l ->
  exists s' evs, run w tr s l = (s', tr ++ evs) /\ tells s [] l (obj_told evs).
Proof. exact L_C109_datagrams. Qed.
Print Assumptions C109_datagrams.
(** C109: where nothing raises, of all of them. *)
Theorem C109_delivery : forall (PS : PySet) w l ms s tr, quiet w -> no_raise w -> ln_ctl s = None -> fitting_node s -> node_first s ->
  arrive_all s l ms -> Forall (knows_gets s) ms ->
  exists s' evs, run w tr s l = (s', tr ++ evs) /\ obj_told evs = flat_map (concerned s) ms.
Proof. exact L_C109_delivery. Qed.
Print Assumptions C109_delivery.
(** C109: the servers of a started node are as the last two theorems need them. *)
Theorem C109_started : forall w tr s l s1 tr1 ns, local_start w tr s l = (s1, tr1, Ok true) ->
  node_first (fold_left (fun s n => local_add_observer (OUser n) s) ns s1).
Proof. exact L_C109_started. Qed.
Print Assumptions C109_started.
(** C109: findings.  They are also told of what the node itself sent, of messages that are no requests, and
    of requests for properties that the object does not have. *)
Theorem C109_self_refuted : forall (PS : PySet) w tr s a m o s' tr' r, quiet w -> ln_ctl s = None -> ln_opts s = 1 -> ln_addr s = Some a -> received_from a m ->
  zget (m_DEOJ m) (ln_objs s) = Some o -> node_received w tr s m = (s', tr', r) ->
  exists evs, tr' = tr ++ evs /\ obj_told evs = map (fun n => (m_DEOJ m, n, m)) (o_obs o).
Proof. exact L_C109_self_refuted. Qed.
Print Assumptions C109_self_refuted.
Theorem C109_invalid_refuted : forall (PS : PySet) w tr s a m o s' tr' r, quiet w -> ln_ctl s = None -> received_from a m ->
  zget (m_DEOJ m) (ln_objs s) = Some o ->
  (~ In (m_ESV m) [0x60; 0x61; 0x62; 0x63; 0x6E; 0x74] \/ forall p, In p (m_props m ++ m_sets m ++ m_gets m) -> zget (p_code p) (o_props o) = None) ->
  node_received w tr s m = (s', tr', r) ->
  exists evs, tr' = tr ++ evs /\ obj_told evs = map (fun n => (m_DEOJ m, n, m)) (o_obs o).
Proof. exact L_C109_invalid_refuted. Qed.
Print Assumptions C109_invalid_refuted.

(** A lamp with the observers 7 and 8 and a clock with 9, on a started node. *)
Definition tx_lamp : obj := mkobj 0x029101 "lamp" [(0x80, mkoprop 0x80 [0x30] 1 1 1)] HSuper 0 [7%nat; 8%nat] CSuper.
Definition tx_clock : obj := mkobj 0x001101 "clock" [(0xE0, mkoprop 0xE0 [0; 20] 1 1 1)] HSuper 0 [9%nat] CSuper.
Definition tx_node : lnode := fst (fst (local_start good_os [] (mkln (mknode None [(0x029101, tx_lamp); (0x001101, tx_clock)]) InTable 1 new_manager None) [])).
Definition tx_msg (code esv p : Z) : msg := mkmsg 4 0x05FF01 code esv [mkprop p []] [] [] None None.
Definition tx_at (a : addr) (m : msg) : nat * datagram := (0%nat, (wire m, a)).
Definition tx_from (a : addr) (m : msg) : msg := set_from (Some a) m.
Definition tx_a : addr := ("10.0.0.9"%string, 3610).
Example C109_ex :
  obj_told (snd (run (PS := pyset_nodup) good_os [] tx_node
    [tx_at tx_a (tx_msg 0x029101 0x62 0x80); tx_at tx_a (tx_msg 0x001101 0x62 0xE0); tx_at tx_a (tx_msg 0x013001 0x62 0x80);
     (1%nat, ([16; 0], tx_a)); tx_at tx_a (tx_msg 0x029101 0x62 0xB0)])) =
  [(0x029101, 7%nat, tx_from tx_a (tx_msg 0x029101 0x62 0x80)); (0x029101, 8%nat, tx_from tx_a (tx_msg 0x029101 0x62 0x80));
   (0x001101, 9%nat, tx_from tx_a (tx_msg 0x001101 0x62 0xE0));
   (0x029101, 7%nat, tx_from tx_a (tx_msg 0x029101 0x62 0xB0)); (0x029101, 8%nat, tx_from tx_a (tx_msg 0x029101 0x62 0xB0))] /\
  concerned tx_node (tx_from tx_a (tx_msg 0x013001 0x62 0x80)) = [] /\
  ln_addr tx_node = Some ("192.168.0.2"%string, 3610) /\ ln_opts tx_node = 1.
Proof. vm_compute. repeat split. Qed.
(** Its own message, although the node is to ignore these. *)
Example C109_self_ex : let a := ("192.168.0.2"%string, 3610) in
  obj_told (snd (run (PS := pyset_nodup) good_os [] tx_node [tx_at a (tx_msg 0x029101 0x73 0x80)])) =
  [(0x029101, 7%nat, tx_from a (tx_msg 0x029101 0x73 0x80)); (0x029101, 8%nat, tx_from a (tx_msg 0x029101 0x73 0x80))].
Proof. vm_compute. reflexivity. Qed.
(** The objects of a controller: only requests. *)
Definition tx_ctl : lnode := set_ln_ctl (Some (mkctl [] None None [])) tx_node.
Example C109_ctl_ex :
  obj_told (snd (run (PS := pyset_nodup) good_os [] tx_ctl [tx_at tx_a (tx_msg 0x001101 0x63 0xE0); tx_at tx_a (tx_msg 0x001101 0x73 0xE0)])) =
  [(0x001101, 9%nat, tx_from tx_a (tx_msg 0x001101 0x63 0xE0))].
Proof. vm_compute. reflexivity. Qed.
(** An observer that raises: the next one is not told, and nothing is answered. *)
Example C109_raise_ex :
  let w := mkos (os_netif good_os) (os_bind good_os) (os_sendto good_os) (os_resolve good_os)
    (fun _ e => match e with EvObjObs _ 7%nat _ => Err ValueError | _ => Ok tt end) in
  let m := tx_from tx_a (tx_msg 0x029101 0x62 0x80) in
  node_received (PS := pyset_nodup) w [] tx_node m = (tx_node, [EvObjObs 0x029101 7 m], Err ValueError).
Proof. vm_compute. reflexivity. Qed.
