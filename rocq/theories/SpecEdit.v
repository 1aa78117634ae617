(** Specifications for observers that change the message they are given (C103). *)
From Verif Require Import PyBase MsgM PropM ObjM SpecWire SpecReq NodeM LocalM SpecNode SpecLocal CtrlM EditM SpecCb.

Section Edited.
Context {U : Type} (ed : eds U) (key : Z).
(** The message that the observers [l] of the object [key] leave, and their state. *)
Fixpoint edited (u : U) (l : list nat) (m : msg) : U * msg :=
  match l with
  | [] => (u, m)
  | n :: r => let '(u1, m1, _) := ed_obj ed u key n m in edited u1 r m1
  end.
(** What each of them is told: the message as those before have left it. *)
Fixpoint views (u : U) (l : list nat) (m : msg) : list event :=
  match l with
  | [] => []
  | n :: r => EvObjObs key n m :: let '(u1, m1, _) := ed_obj ed u key n m in views u1 r m1
  end.
(** The first of them that raises, if one does: their state then, what was told until then, and the exception. *)
Fixpoint failing (u : U) (l : list nat) (m : msg) : option (U * list event * exn) :=
  match l with
  | [] => None
  | n :: r =>
      match ed_obj ed u key n m with
      | (u1, _, Err x) => Some (u1, [EvObjObs key n m], x)
      | (u1, m1, Ok _) => match failing u1 r m1 with Some (u2, evs, x) => Some (u2, EvObjObs key n m :: evs, x) | None => None end
      end
  end.
End Edited.

(** No observer raises. *)
Definition calm {U} (ed : eds U) : Prop :=
  (forall u n m, snd (ed_srv ed u n m) = Ok tt) /\ (forall u key n m, snd (ed_obj ed u key n m) = Ok tt).
(** The observers of objects do not change messages; those of the node may. *)
Definition watching {U} (ed : eds U) : Prop := forall u key n m, snd (fst (ed_obj ed u key n m)) = m.
(** The network does not depend on what observers have been told. *)
Definition blind (w : os) : Prop := forall t1 t2, sent t1 = sent t2 ->
  (forall i b d, os_sendto w t1 i b d = os_sendto w t2 i b d) /\ (forall h, os_resolve w t1 h = os_resolve w t2 h).
(** The observers of every server: first the node, then others. *)
Definition node_first (s : lnode) : Prop := forall v, In v (g_servers (ln_mgr s)) -> exists l, s_obs v = ONode :: map OUser l.

(** What a node does with message [m] for its object [o], when the observers of [o] leave [e] of it:
    the object answers [e], and the answer goes where [e] says. *)
Definition serves_edited (o : obj) (m e : msg) (tr : trace) (told : list event) (s s' : lnode) (tr' : trace) : Prop :=
  exists o' ans, obj_message_received o e = (o', o_obs o, Ok ans) /\
    zget (m_DEOJ m) (ln_objs s') = Some o' /\ (forall c, c <> m_DEOJ m -> zget c (ln_objs s') = zget c (ln_objs s)) /\
    ln_ctl s' = ln_ctl s /\ ln_opts s' = ln_opts s /\ g_servers (ln_mgr s') = g_servers (ln_mgr s) /\
    match ans with
    | None => tr' = tr ++ told
    | Some rsp =>
        exists snds t, (m_TID rsp <> 0 -> t = m_TID rsp) /\
          tr' = tr ++ told ++ map (fun x => let '(i, b, d, r) := x in EvSend i b d r) snds /\
          (let b := wire (set_TID t (match ln_ctl s with None => rsp | Some _ => set_SEOJ 0x0EF001 rsp end)) in
           if m_ESV rsp =? 0x73 then casts b MULTICAST (open_ifs s) snds
           else match m_from e with Some a => tries b a (open_ifs s) snds | None => snds = [] end)
    end.

(** The user observers [l] of a server, told message [m] in turn: their state afterwards, and what each is told:
    the message as those before have left it. *)
Fixpoint passed {U} (ed : eds U) (u : U) (l : list nat) (m : msg) : U * list (nat * msg) :=
  match l with
  | [] => (u, [])
  | n :: r => let '(u1, m1, _) := ed_srv ed u n m in (fst (passed ed u1 r m1), (n, m) :: snd (passed ed u1 r m1))
  end.
