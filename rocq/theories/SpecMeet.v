(** Specification for controllers that search and then use the nodes they have found (C115): the search of
    SpecDisc.v, followed by any events on the network of SpecMulti.v. *)
From Verif Require Import PyBase MsgM PropM ObjM DbM SpecWire SpecReq NodeM LocalM CtrlM SpecNode SpecProf SpecLocal SpecSrv SpecCtrl SpecEnd SpecLife SpecSelf SpecSess SpecDisc SpecMany SpecMulti.
From Verif Require Import SpecReq.

(** A node at address [a] created by the library that after any life hosts the devices [l] with the contents [T a]. *)
Definition stocked {PS : PySet} (T : addr -> option store) (d : site) (l : list Z) : Prop :=
  (exists c r s0 added, new_local c r = (s0, Ok tt) /\ turns (t_os d) (s0, []) added (t_node d, t_tr d) /\ l = device_codes (firsts Z.eqb added)) /\
  Forall (fun k => 0 <= k < 2 ^ 24) l /\ zlen l <= 84 /\ listens (t_node d) /\ quiet (t_os d) /\ reliable (t_os d) /\ ln_ctl (t_node d) = None /\
  exists S, T (t_addr d) = Some S /\ mirrors (t_node d) S /\ store_ok S.
(** A controller that may know no node. *)
Definition newcomer (c : peer) : Prop :=
  quiet (y_os c) /\ reliable (y_os c) /\ ln_ctl (y_node c) <> None /\ 0 <= g_tid (ln_mgr (y_node c)) <= 65535 /\ listens (y_node c) /\ (y_srv c < servers_of (y_node c))%nat.

(** A controller searches, and the network delivers what [snd u] says. *)
Definition fresh (d : site) : site := mksite (t_os d) (t_addr d) (t_node d) (t_tr d) (length (t_tr d)).
Definition meet {PS : PySet} (st : list peer * list site) (u : peer * list move) : list peer * list site :=
  let c := fst u in
  let '(s1, tr1, _) := ctl_search (y_os c) (y_tr c) (y_node c) in
  let x := area_run (snd u) (mkarea (mksite (y_os c) (y_addr c) s1 tr1 (length tr1)) (reach ("224.0.23.0"%string, 3610) (since (y_tr c) tr1)) (map fresh (snd st))) in
  (fst st ++ [set_peer (t_node (a_ctl x)) (t_tr (a_ctl x)) false c], a_devs x).
(** One controller after the other. *)
Definition meet_all {PS : PySet} (us : list (peer * list move)) (devs : list site) : list peer * list site := fold_left meet us ([], devs).
(** The nodes after it; requests arrive at server [sv a] of the node at [a]. *)
Definition as_peer (sv : addr -> nat) (d : site) : peer := mkpeer (t_os d) (t_addr d) (sv (t_addr d)) (t_node d) (t_tr d) false.
(** What a node holds. *)
Definition contents (s : lnode) : store := fun k => option_map (fun o c => option_map (cell_of (o_handler o)) (get_property c o)) (zget k (ln_objs s)).
