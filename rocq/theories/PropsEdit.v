(** Property C103: observers that change the message they are given. *)
From Verif Require Import PyBase MsgM PropM ObjM DbData DbM NodeM LocalM CtrlM SpecWire SpecReq SpecNode SpecLocal SpecSrv MapP NodeP CbM SpecCb EditM SpecEdit EditP.

(** C103: the object that the received message addresses treats the message its observers have left, whatever they
    did to it; the answer goes where this message says.  Each observer sees what those before have left. *)
Theorem C103_edited : forall (U : Type) (w : os) (ed : eds U) a m o u tr s u' s' tr',
  received_from a m -> zget (m_DEOJ m) (ln_objs s) = Some o ->
  ed_local w ed u tr s m = (u', s', tr', Ok tt) ->
  let e := snd (edited ed (m_DEOJ m) u (o_obs o) m) in
  u' = fst (edited ed (m_DEOJ m) u (o_obs o) m) /\
  serves_edited o m e tr (views ed (m_DEOJ m) u (o_obs o) m) s s' tr'.
Proof. exact L_C103_edited. Qed.
Print Assumptions C103_edited.
(** An observer that raises: the object is not asked, nothing is answered, the later observers are not told. *)
Theorem C103_raises : forall (U : Type) (w : os) (ed : eds U) a m o u tr s,
  received_from a m -> zget (m_DEOJ m) (ln_objs s) = Some o ->
  forall u1 evs x, failing ed (m_DEOJ m) u (o_obs o) m = Some (u1, evs, x) ->
  ed_local w ed u tr s m = (u1, s, tr ++ evs, Err x).
Proof. exact L_C103_raises. Qed.
Print Assumptions C103_raises.
(** C103: as if the edited message had been received. *)
Theorem C103_as_received : forall (U : Type) (w : os) (ed : eds U) a a' m o u tr s,
  calm ed -> blind w -> quiet w -> received_from a m -> zget (m_DEOJ m) (ln_objs s) = Some o ->
  let e := snd (edited ed (m_DEOJ m) u (o_obs o) m) in
  received_from a' e -> m_DEOJ e = m_DEOJ m ->
  let '(u1, s1, tr1, r1) := ed_local w ed u tr s m in
  let '(s2, tr2, r2) := local_received w tr s e in
  s1 = s2 /\ sent tr1 = sent tr2 /\ r1 = r2.
Proof. exact L_C103_as_received. Qed.
Print Assumptions C103_as_received.
(** Two observers: one that gives read requests of 0xE0 the property 0x80 instead, one that counts. *)
Definition ex_eds : eds nat := mkeds
  (fun u n m => (u, set_TID 7 (set_ESV 0x61 m), Ok tt))
  (fun u key n m => if Nat.eqb n 1 then (u, set_props (map (fun p => if p_code p =? 0xE0 then mkprop 0x80 [] else p) (m_props m)) m, Ok tt)
                    else (Nat.add u (length (filter (fun p => p_code p =? 0x80) (m_props m))), m, Ok tt)).
Definition ex_lamp (l : list nat) : obj := mkobj 0x029101 "lamp" [(0x80, mkoprop 0x80 [0x30] 1 1 1)] HSuper 0 l CSuper.
Definition ex_node (l : list nat) : lnode := fst (fst (local_start good_os [] (mkln (mknode None [(0x029101, ex_lamp l)]) InTable 1 new_manager None) [])).
Definition ex_get (t c : Z) : msg := mkmsg t 0x05FF01 0x029101 0x62 [mkprop c []] [] [] (Some ("10.0.0.9"%string, 3610)) None.
Example C103_ex :
  let '(u, s, tr, r) := ed_local good_os ex_eds 0%nat [] (ex_node [1; 2]%nat) (ex_get 4 0xE0) in
  (u, r) = (1%nat, Ok tt) /\ snd (edited ex_eds 0x029101 0%nat [1; 2]%nat (ex_get 4 0xE0)) = ex_get 4 0x80 /\
  tr = [EvObjObs 0x029101 1 (ex_get 4 0xE0); EvObjObs 0x029101 2 (ex_get 4 0x80);
        EvSend "192.168.0.2" (wire (mkmsg 4 0x029101 0x05FF01 0x72 [mkprop 0x80 [0x30]] [] [] None None)) ("10.0.0.9"%string, 3610) (Ok 15)].
Proof. vm_compute. repeat split. Qed.

(** C103: observers of the node, which a started node tells after itself, change nothing but what later observers see. *)
Theorem C103_node : forall (PS : PySet) (U : Type) (w : os) (ed : eds U) l u tr s,
  blind w -> quiet w -> calm ed -> watching ed -> node_first s ->
  let '(u1, s1, tr1) := ed_run w ed u tr s l in
  let '(s2, tr2) := run w tr s l in
  s1 = s2 /\ sent tr1 = sent tr2.
Proof. exact L_C103_node. Qed.
Print Assumptions C103_node.
Theorem C103_started : forall w tr s l s' tr' ns, local_start w tr s l = (s', tr', Ok true) ->
  node_first (fold_left (fun s n => local_add_observer (OUser n) s) ns s').
Proof. exact L_C103_started. Qed.
Print Assumptions C103_started.
Example C103_node_ex :
  let s := fold_left (fun s n => local_add_observer (OUser n) s) [4; 5]%nat (ex_node []) in
  let ds := [(0%nat, (wire (ex_get 4 0x80), ("10.0.0.9"%string, 3610))); (1%nat, (wire (ex_get 5 0x80), ("10.0.0.8"%string, 3610)))] in
  (forall u key n m, snd (fst (ed_obj (mkeds (ed_srv ex_eds) (fun u _ _ m => (u, m, Ok tt))) u key n m)) = m) /\
  sent (snd (@ed_run pyset_nodup nat good_os (mkeds (ed_srv ex_eds) (fun u _ _ m => (u, m, Ok tt))) 0%nat [] s ds)) =
  [("192.168.0.2"%string, wire (mkmsg 4 0x029101 0x05FF01 0x72 [mkprop 0x80 [0x30]] [] [] None None), ("10.0.0.9"%string, 3610), Ok 15);
   ("192.168.0.2"%string, wire (mkmsg 5 0x029101 0x05FF01 0x72 [mkprop 0x80 [0x30]] [] [] None None), ("10.0.0.8"%string, 3610), Ok 15)].
Proof. vm_compute. split; reflexivity. Qed.

(** C103: what the other observers of a server are told of a datagram, and their state after it; a node that raises
    on a message leaves them without it.  They keep their state from one datagram to the next. *)
Theorem C103_heard : forall (PS : PySet) (U : Type) (w : os) (ed : eds U) u tr s i d m v l,
  calm ed -> arrives s i d m -> server_at s i = Some v -> s_obs v = ONode :: map OUser l ->
  let '(u1, s1, tr1, r) := ed_received w ed u tr s m in
  let '(u2, s2, tr2) := ed_run w ed u tr s [(i, d)] in
  match r with
  | Ok _ => u2 = fst (passed ed u1 l m) /\ s2 = s1 /\ tr2 = tr1 ++ map (fun x => EvObs (fst x) (snd x)) (snd (passed ed u1 l m))
  | Err _ => u2 = u1 /\ tr2 = tr1
  end.
Proof. exact L_C103_heard. Qed.
Print Assumptions C103_heard.
Theorem C103_goes_on : forall (PS : PySet) (U : Type) (w : os) (ed : eds U) u tr s l r,
  ed_run w ed u tr s (l ++ r) = let '(u1, s1, tr1) := ed_run w ed u tr s l in ed_run w ed u1 tr1 s1 r.
Proof. exact L_C103_goes_on. Qed.
Print Assumptions C103_goes_on.
(** Observer 4 counts and renumbers; observer 5 is told the new number; with the next datagram 4 has counted two. *)
Definition count_eds : eds Z := mkeds (fun u n m => if Nat.eqb n 4 then (u + 1, set_TID (100 + u) m, Ok tt) else (u, m, Ok tt)) (fun u _ _ m => (u, m, Ok tt)).
Example C103_heard_ex :
  let s := fold_left (fun s n => local_add_observer (OUser n) s) [4; 5]%nat (ex_node []) in
  let ds := [(0%nat, (wire (ex_get 4 0x80), ("10.0.0.9"%string, 3610))); (1%nat, (wire (ex_get 5 0x80), ("10.0.0.9"%string, 3610)))] in
  let '(u, _, tr) := @ed_run pyset_nodup Z good_os count_eds 0 [] s ds in
  u = 2 /\ told tr = [(4%nat, ex_get 4 0x80); (5%nat, ex_get 100 0x80); (4%nat, ex_get 5 0x80); (5%nat, ex_get 101 0x80)].
Proof. vm_compute. split; reflexivity. Qed.

(** C103: what a controller records does not depend on the observers. *)
Theorem C103_records : forall (PS : PySet) (U : Type) (w : os) (ed : eds U) u tr s m u' s' tr' r,
  ln_ctl s <> None -> ed_received w ed u tr s m = (u', s', tr', r) ->
  (In (m_ESV m) [0x60; 0x61; 0x62; 0x63; 0x6E; 0x74] -> ln_ctl s' = ln_ctl s) /\
  (~ In (m_ESV m) [0x60; 0x61; 0x62; 0x63; 0x6E; 0x74] -> u' = u /\ node_received w tr s m = (s', tr', r)).
Proof. exact L_C103_records. Qed.
Print Assumptions C103_records.
(** C103: finding.  Observers of an object can change what is stored, and the TID and the destination of the answer. *)
Theorem C103_listen_refuted : exists (ed : eds unit) (m : msg) (s s' : lnode) tr' i,
  calm ed /\ received_from ("10.0.0.9"%string, 3610) m /\
  m_TID m = 4 /\ m_ESV m = 0x61 /\ m_props m = [mkprop 0x80 [0x30]] /\ m_DEOJ m = 0x029101 /\
  ed_local good_os ed tt [] s m = (tt, s', tr', Ok tt) /\
  mem_at s' 0x029101 0x80 = Some [0x31] /\
  sent tr' = [(i, wire (mkmsg 99 0x029101 0x05FF01 0x71 [mkprop 0x80 []] [] [] None None), ("10.0.0.66"%string, 3610), Ok 14)].
Proof. exact L_C103_listen_refuted. Qed.
Print Assumptions C103_listen_refuted.
(** The second of three observers raises. *)
Definition raise_eds : eds Z := mkeds (fun u _ m => (u, m, Ok tt)) (fun u _ n m => (u + 1, set_TID (200 + u) m, if Nat.eqb n 2 then Err ValueError else Ok tt)).
Example C103_raises_ex : let s := ex_node [1; 2; 3]%nat in
  ed_local good_os raise_eds 0 [] s (ex_get 4 0x80) = (2, s, [EvObjObs 0x029101 1 (ex_get 4 0x80); EvObjObs 0x029101 2 (ex_get 200 0x80)], Err ValueError).
Proof. vm_compute. reflexivity. Qed.
