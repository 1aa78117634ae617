(** The exact outcome where the claims C44, C50, C61 and C62 fail. *)
From Verif Require Import PyBase BytesM MsgM PropM ObjM NodeM CtrlM SpecCtrl.

(** A request to write and read that names, among the properties to read, one that the addressed object
    does not have. *)
Definition names_unknown (s : lnode) (m : msg) : bool :=
  (m_ESV m =? 0x6E) &&
  match zget (m_DEOJ m) (ln_objs s) with
  | Some o => negb (forallb (fun p => has_property (p_code p) o) (m_gets m))
  | None => false
  end.
(** What treating [m] raises in a node [s] without user handlers. *)
Definition outcome (s : lnode) (m : msg) : res unit := if names_unknown s m then Err AttributeError else Ok tt.

(** The sockets that a start which raises has left in use: those of the interfaces [done], and that for
    unicast of the interface [i] if it is the one for multicast that could not be had ([uni] = false). *)
Definition left_behind (done : list string) (i : string) (uni : bool) : list server :=
  flat_map (fun j => [mksrv true j true true []; mksrv false j true true []]) done ++
  if uni then [] else [mksrv true i true true []].
(** Every socket can be had. *)
Definition free_ports (w : os) : Prop := forall tr u i, os_bind w tr u i = Ok tt.

(** The first node whose address is [x] or [y]. *)
Definition find_either (x y : string) (c : ctl) : option node :=
  find (fun n => String.eqb (node_ip n) x || String.eqb (node_ip n) y) (ctl_nodes c).
