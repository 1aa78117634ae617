(** Specification for requests to all nodes of a network (C113), on the network of SpecDisc.v. *)
From Verif Require Import PyBase MsgM PropM ObjM SpecWire SpecReq NodeM LocalM CtrlM SpecNode SpecLocal SpecSrv SpecCtrl SpecEnd SpecSess SpecDisc.
From Verif Require Import SpecReq.

(** A device with the contents [S], all of whose servers run. *)
Definition serves (d : site) (S : store) : Prop :=
  quiet (t_os d) /\ reliable (t_os d) /\ listens (t_node d) /\ ln_ctl (t_node d) = None /\
  mirrors (t_node d) S /\ store_ok S /\ t_from d = length (t_tr d).
(** The contents after a call has been heard [n] times: it makes no difference how often. *)
Definition heard_store (n : nat) (S : store) (code : Z) (k : call) : store :=
  match n with O => S | _ => store_after S code k end.
(** What the device answers each time. *)
Definition answer_bytes (tid : Z) (S : store) (code : Z) (k : call) : list (list Z) :=
  match store_reply S code k with
  | Some (e, ps, ss, gs) => [wire (mkmsg tid code 0x0EF001 e ps ss gs None None)]
  | None => []
  end.
(** The datagrams sent since [from], with their destinations. *)
Definition outbox (d : site) : list (list Z * addr) := map (fun x => (send_bytes x, snd (fst x))) (sent (skipn (t_from d) (t_tr d))).
