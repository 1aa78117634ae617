(** Specification for repeated searches on a network that changes (C114), on the network of SpecDisc.v. *)
From Verif Require Import PyBase MsgM PropM ObjM SpecWire SpecReq NodeM LocalM CtrlM SpecNode SpecLocal SpecSrv SpecCtrl SpecEnd SpecDisc.

(** The network during one search: the nodes, their devices, and what is delivered. *)
Record round := mkround { r_devs : list site; r_lists : list (list Z); r_sched : list move }.
Definition round_ok {PS : PySet} (r : round) : Prop := NoDup (map (fun d => fst (t_addr d)) (r_devs r)) /\ Forall2 hosts (r_devs r) (r_lists r).
(** A controller searches once. *)
Definition one_search {PS : PySet} (w : os) (a : addr) (st : lnode * trace) (r : round) : lnode * trace :=
  let '(s1, tr1, _) := ctl_search w (snd st) (fst st) in
  let x := area_run (r_sched r) (mkarea (mksite w a s1 tr1 (length tr1)) (reach ("224.0.23.0"%string, 3610) (since (snd st) tr1)) (r_devs r)) in
  (t_node (a_ctl x), t_tr (a_ctl x)).
Definition search_again {PS : PySet} (w : os) (a : addr) (rs : list round) (st : lnode * trace) : lnode * trace := fold_left (one_search w a) rs st.
(** The controller [s] hears the answer of a node with the address [ip], at [a] with the devices [l]. *)
Definition replies (s : lnode) (r : round) (ip : string) (a : addr) (l : list Z) : Prop :=
  exists k d, nth_error (r_devs r) k = Some d /\ nth_error (r_lists r) k = Some l /\ t_addr d = a /\ fst a = ip /\ zlen l <= 84 /\
  answered (length (open_ifs s)) (servers_of (t_node d)) (servers_of s) k (r_sched r).
