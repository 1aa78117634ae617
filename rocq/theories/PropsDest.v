(** Property C120: destinations of any kind. *)
From Verif Require Import PyBase BytesM EsvM MsgM PropM ObjM DbData DbM NodeM LocalM CtrlM AddrM DestM SpecWire SpecNode SpecLocal SpecDest MapP NodeP DestP.

(** C120: a documented destination is the address it names. *)
Theorem C120_same : forall w bs tr s m d c h p, ln_ctl s = Some c -> names d h p ->
  (let '(s', tr', m', r) := ctl_send w tr s m (DTup (h, p)) in
   exists m1 to, d_send w bs tr s m d = (s', tr', m1, to, lift r) /\ m' = match to with Some _ => set_to (Some (h, p)) m1 | None => m1 end) /\
  (let '(s1, tr', m', r) := post_begin w tr s m (DTup (h, p)) in
   exists s' c' m1 to, d_post w bs tr s m d = (s', tr', m1, to, lift r) /\ ln_node s' = ln_node s1 /\ ln_mgr s' = ln_mgr s1 /\ m' = match to with Some _ => set_to (Some (h, p)) m1 | None => m1 end /\
     ln_ctl s' = Some c' /\ c_req c' = Some m1 /\ c_resp c' = None /\ c_found c' = c_found c /\ c_listeners c' = c_listeners c).
Proof. exact L_C120_same. Qed.
Print Assumptions C120_same.
(** C120: no datagram goes anywhere else. *)
Theorem C120_sent : forall w bs tr s m d c s' tr' m' to r, ln_ctl s = Some c -> real d -> d_send w bs tr s m d = (s', tr', m', to, r) ->
  exists evs, tr' = tr ++ evs /\ forall e, In e evs -> exists i b h p q, e = EvSend i b (h, p) q /\ (names d h p \/ taken bs d h p).
Proof. exact L_C120_sent. Qed.
Print Assumptions C120_sent.
(** C120: other values are refused. *)
Theorem C120_refused_partial : forall w bs tr s m d, foreign d ->
  exists s' m', d_send w bs tr s m d = (s', tr, m', None, RBool false) /\
    ln_node s' = ln_node s /\ ln_ctl s' = ln_ctl s /\ g_servers (ln_mgr s') = g_servers (ln_mgr s) /\
    (ln_ctl s <> None -> exists s2, d_post w bs tr s m d = (s2, tr, m', None, RBool false) /\ ln_node s2 = ln_node s /\ ln_mgr s2 = ln_mgr s').
Proof. exact L_C120_refused_partial. Qed.
Print Assumptions C120_refused_partial.
(** C120: pairs that are no addresses raise. *)
Theorem C120_items_refuted : forall w bs tr s m c x y, ln_ctl s = Some c -> open_ifs s <> [] -> encodable m ->
  let outcome r := exists s' m' to, d_send w bs tr s m (TVal (VTuple [x; y])) = (s', tr, m', to, RRaise r) in
  (no_host bs x -> outcome (XLib AttributeError)) /\
  (forall h, x = VStr h -> no_port y -> outcome XType) /\
  (forall h p, x = VStr h -> y = VInt p -> ~ 0 <= p <= 65535 -> (forall e, os_resolve w tr h <> Err e) -> outcome XOverflow).
Proof. exact L_C120_items_refuted. Qed.
Print Assumptions C120_items_refuted.
(** C120: a node without an address is sent to the host "". *)
Theorem C120_nowhere_refuted : forall w bs tr s m c, ln_ctl s = Some c -> open_ifs s <> [] -> encodable m ->
  exists s' m' to r i b q rest, d_send w bs tr s m (TNode []) = (s', tr ++ EvSend i b (""%string, 0) q :: rest, m', to, r).
Proof. exact L_C120_nowhere_refuted. Qed.
Print Assumptions C120_nowhere_refuted.
(** C120: get_node. *)
Theorem C120_get_partial : forall w tr c,
  (forall s, d_get w tr c (VStr s) = get_node w tr c (GAStr s)) /\
  (forall s r, d_get w tr c (VTuple (VStr s :: r)) = get_node w tr c (GATup s)) /\
  (forall v, (forall s, v <> VStr s) -> (forall s r, v <> VTuple (VStr s :: r)) -> v <> VTuple [] -> d_get w tr c v = Ok None).
Proof. exact L_C120_get_partial. Qed.
Print Assumptions C120_get_partial.
(** C120: get_node of an empty tuple. *)
Theorem C120_get_refuted : forall w tr c, d_get w tr c (VTuple []) = match ctl_nodes c with [] => Ok None | _ => Err IndexError end.
Proof. exact L_C120_get_refuted. Qed.
Print Assumptions C120_get_refuted.
(** C120: a node that is no controller only takes tuples. *)
Theorem C120_local_boundary : forall w bs tr s m d, ln_ctl s = None -> (forall x y, d <> TVal (VTuple [x; y])) ->
  exists s' m', d_send w bs tr s m d = (s', tr, m', None, RBool false).
Proof. exact L_C120_local_boundary. Qed.
Print Assumptions C120_local_boundary.

(** A started controller on one interface that sends a read request. *)
Definition qx_rnd : np_random := mkrnd [1; 2; 3; 4; 5; 6; 7; 8; 9; 10; 11; 12; 13] 20 21.
Definition qx_ctl : lnode :=
  mkln (ln_node (fst (@new_local pyset_nodup true qx_rnd))) (ln_prof (fst (@new_local pyset_nodup true qx_rnd))) 0
    (mkmgr 41 [mksrv true "10.0.0.2" true true []; mksrv false "10.0.0.2" true true []])
    (Some (mkctl [("10.0.0.5"%string, new_node (Some ("10.0.0.5"%string, 3610)))] None None [])).
Definition qx_msg : msg := mkmsg 0 0 0x0EF001 0x62 [mkprop 0x80 []] [] [] None None.
Definition qx_bytes : nat -> option string := fun n => if Nat.eqb n 1 then Some "10.0.0.9"%string else None.
Definition qx_out (d : ddest) : list (string * Z) * dres :=
  let '(_, tr, _, _, r) := d_send good_os qx_bytes [] qx_ctl qx_msg d in (flat_map (fun e => match e with EvSend _ _ a _ => [a] | _ => [] end) tr, r).
Example C120_ex : map qx_out
  [TVal (VStr "lamp.local"); TVal (VTuple [VStr "10.0.0.5"; VInt 80]); TNode [VStr "10.0.0.5"; VInt 80];
   TNode []; TVal (VTuple [VOther 1; VInt 80]);
   TVal (VTuple [VStr "10.0.0.5"]); TVal (VInt 5); TVal (VOther 0); TVal (VTuple []);
   TVal (VTuple [VOther 0; VInt 80]); TVal (VTuple [VStr "10.0.0.5"; VStr "80"]); TVal (VTuple [VStr "10.0.0.5"; VInt 70000])] =
  [([("lamp.local"%string, 3610)], RBool true); ([("10.0.0.5"%string, 80)], RBool true); ([("10.0.0.5"%string, 3610)], RBool true);
   ([(""%string, 0)], RBool true); ([("10.0.0.9"%string, 80)], RBool true);
   ([], RBool false); ([], RBool false); ([], RBool false); ([], RBool false);
   ([], RRaise (XLib AttributeError)); ([], RRaise XType); ([], RRaise XOverflow)].
Proof. vm_compute. reflexivity. Qed.
Example C120_hyps_ex : names (TVal (VStr "lamp.local")) "lamp.local" 3610 /\ foreign (TVal (VTuple [VStr "10.0.0.5"])) /\ real (TNode []) /\ no_host qx_bytes (VOther 0) /\ no_port (VStr "80") /\
  open_ifs qx_ctl <> [] /\ encodable qx_msg /\ ln_ctl qx_ctl <> None /\ taken qx_bytes (TVal (VTuple [VOther 1; VInt 80])) "10.0.0.9" 80.
Proof.
  split; [constructor|]. split; [exact I|]. split; [now left|]. split; [reflexivity|]. split; [exact I|]. split; [discriminate|].
  split; [split; [unfold byte_ok; cbn; lia|split; [cbn; lia|repeat constructor; unfold byte_ok; cbn; lia]]|]. split; [discriminate|]. constructor; [reflexivity|lia].
Qed.
Example C120_get_ex : map (fun v => match d_get good_os [] (mkctl [("10.0.0.5"%string, new_node None)] None None []) v with Ok (Some _) => 1 | Ok None => 0 | Err _ => 2 end)
  [VStr "10.0.0.5"; VStr "10.0.0.6"; VTuple [VStr "10.0.0.5"; VInt 80]; VTuple [VInt 5]; VInt 5; VTuple []] = [1; 0; 1; 0; 0; 2].
Proof. vm_compute. reflexivity. Qed.
