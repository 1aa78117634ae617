(** Specifications for the whole life of a node (C69, C70). *)
From Verif Require Import PyBase MsgM PropM ObjM SpecWire SpecReq NodeM LocalM CtrlM SpecNode SpecLocal SpecSrv.

(** Everything a user of a LocalNode or Controller, or the network, can do to it. *)
Inductive act :=
| AStart (l : list string) | AStop
| AAdd (o : option obj) | AObserve (o : obs) | AOption (opt : Z) (v : bool)
| AObjs (l : list (Z * obj))                    (* any change of the objects *)
| ASend (m : msg) (a : option addr) | AAnnounce (m : msg)
| ARecv (j : nat) (d : datagram)                (* a datagram arrives at server j *)
| ACtlStart | ASearch | ACtlSend (m : msg) (d : dest) | APost (m : msg) (d : dest)
| AObjSend (n : node) (o : obj) (esv : Z) (l : props_arg) | AObjPost (n : node) (o : obj) (esv : Z) (l : props_arg)
| ACtl (c : ctl).                               (* any change of listeners and found nodes *)
Definition act_step {PS : PySet} (w : os) (x : lnode * trace) (a : act) : lnode * trace :=
  let '(s, tr) := x in
  match a with
  | AStart l => fst (local_start w tr s l)
  | AStop => fst (local_stop tr s)
  | AAdd o => (fst (local_add_object o s), tr)
  | AObserve o => (local_add_observer o s, tr)
  | AOption opt v => (fst (set_enabled opt v s), tr)
  | AObjs l => (set_ln_node (mknode (ln_addr s) l) s, tr)
  | ASend m a => fst (fst (local_send w tr s m a))
  | AAnnounce m => fst (fst (local_announce w tr s m))
  | ARecv j d => deliver w tr s j d
  | ACtlStart => fst (ctl_start w tr s)
  | ASearch => fst (ctl_search w tr s)
  | ACtlSend m d => fst (fst (ctl_send w tr s m d))
  | APost m d => fst (fst (post_begin w tr s m d))
  | AObjSend n o esv l => fst (object_send w tr s n o esv l)
  | AObjPost n o esv l => fst (fst (object_post w tr s n o esv l))
  | ACtl c => (match ln_ctl s with Some _ => set_ln_ctl (Some c) s | None => s end, tr)
  end.
(** Datagrams are byte strings. *)
Definition act_ok (a : act) : Prop := match a with ARecv _ d => bytes_ok (fst d) | _ => True end.
Definition acts_run {PS : PySet} (w : os) (l : list act) (x : lnode * trace) : lnode * trace := fold_left (act_step w) l x.

(** How often a socket is open: opened and not closed since. *)
Definition socket_eq_dec (a b : socket) : {a = b} + {a <> b}.
Proof. decide equality; [apply string_dec|apply Bool.bool_dec]. Defined.
Definition times (k : socket) (l : list socket) : nat := count_occ socket_eq_dec l k.
(** [lawful tr]: every datagram is a complete frame and leaves through a unicast socket that has been
    opened and not been closed. *)
Definition lawful (tr : trace) : Prop := forall before i b d r later,
  tr = before ++ EvSend i b d r :: later ->
  (times (true, i) (closed before) < times (true, i) (opened before))%nat /\ exists m, encodable m /\ b = wire m.
