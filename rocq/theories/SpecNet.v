(** Specifications for networks of nodes (C68). *)
From Verif Require Import PyBase MsgM PropM ObjM SpecWire SpecReq NodeM LocalM CtrlM SpecNode SpecLocal SpecSrv SpecEnd.

(** The service code of a datagram: byte 10. *)
Definition esv_of (b : list Z) : Z := nth 10 b 0.
(** The service codes of answers (ECHONET Lite Specification Part II, table 3-8 and 3-9). *)
Definition answer_code (e : Z) : Prop := In e [0x71; 0x72; 0x73; 0x7A; 0x7E; 0x50; 0x51; 0x52; 0x53; 0x5E].

(** Nodes (LocalNodes and Controllers, each with its own operating system [w k]) and every datagram
    sent so far.  The network may lose, duplicate and reorder datagrams and deliver them to anyone,
    with any source address. *)
Definition net := (list (lnode * trace) * list (list Z))%type.
(** Datagram number [i] arrives at a server of one of the nodes. *)
Inductive hop {PS : PySet} (w : nat -> os) : net -> nat -> net -> Prop :=
| hop_intro N F k j a i s tr b s' tr' :
    nth_error N k = Some (s, tr) -> nth_error F i = Some b -> bytes_ok b ->
    deliver (w k) tr s j (b, a) = (s', tr') ->
    hop w (N, F) i (upd N k (s', tr'), F ++ map send_bytes (sent (since tr tr'))).
Inductive hops {PS : PySet} (w : nat -> os) : net -> list nat -> net -> Prop :=
| hops_nil x : hops w x [] x
| hops_cons x i y l z : hop w x i y -> hops w y l z -> hops w x (i :: l) z.

(** How many datagrams one reception can make a node send: one per interface and node observer. *)
Definition fan_out (n : nat) (s : lnode) : Prop :=
  forall v, In v (g_servers (ln_mgr s)) -> (length (s_obs v) * length (open_ifs s) <= n)%nat.
