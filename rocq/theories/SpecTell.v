(** Specifications for what observers of objects are told (C109). *)
From Verif Require Import PyBase MsgM PropM ObjM SpecWire SpecReq NodeM LocalM CtrlM SpecNode SpecLocal SpecSrv.

(** What observers of objects were told, in order: the object, the observer, the message. *)
Definition obj_told (evs : trace) : list (Z * nat * msg) :=
  flat_map (fun e => match e with EvObjObs c n m => [(c, n, m)] | _ => [] end) evs.
(** Whom a message for the node concerns: the observers of the object it is addressed to; those of a controller
    only if it is a request. *)
Definition concerned (s : lnode) (m : msg) : list (Z * nat * msg) :=
  if (match ln_ctl s with Some _ => true | None => false end) &&
     negb (existsb (Z.eqb (m_ESV m)) [0x60; 0x61; 0x62; 0x63; 0x6E; 0x74]) then []
  else match zget (m_DEOJ m) (ln_objs s) with
       | Some o => map (fun n => (m_DEOJ m, n, m)) (o_obs o)
       | None => []
       end.
(** The servers of a started node: the node is their first observer, then observers of the user. *)
Definition node_first (s : lnode) : Prop := forall i v, server_at s i = Some v -> exists us, s_obs v = ONode :: map OUser us.

(** What observers of objects are told of arriving datagrams: of every frame that a server reads, the concerned.
    A server that reads something else reads nothing more; one that reads a frame may also end. *)
Inductive tells (s : lnode) : list nat -> list (nat * datagram) -> list (Z * nat * msg) -> Prop :=
| tells_end dead : tells s dead [] []
| tells_silent dead i d l out :
    In i dead \/ (forall v, server_at s i = Some v -> s_alive v = false) ->
    tells s dead l out -> tells s dead ((i, d) :: l) out
| tells_malformed dead i d l out v :
    ~ In i dead -> server_at s i = Some v -> s_alive v = true -> (~ exists f, denotes (seen d) f) ->
    tells s (i :: dead) l out -> tells s dead ((i, d) :: l) out
| tells_frame dead dead' i d l out v f :
    ~ In i dead -> server_at s i = Some v -> s_alive v = true -> denotes (seen d) f ->
    dead' = dead \/ dead' = i :: dead -> tells s dead' l out ->
    tells s dead ((i, d) :: l) (concerned s (set_from (Some (snd d)) f) ++ out).
