(** Model of observers that change the message they are given: /repo/uecho/protocol/subject.py:46-54 hands the same
    Message to one observer after the other, /repo/uecho/object.py:330-436 goes on with the message its observers
    have left, /repo/uecho/local_node.py:81-104 chooses the object before and sends the answer to the from_addr
    of the message afterwards, /repo/uecho/frame/server.py:53-72 makes one Message per datagram.  LocalNode and
    Controller work with copies of the message of the server (local_node.py:86, controller.py:288).
    An observer changes the message while it is being told; keeping it and changing it later is not modelled,
    nor are observers that use the node (CbM). *)
From Verif Require Import PyBase BytesM EsvM MsgM PropM ObjM DbData DbM NodeM LocalM CtrlM.

(** The observers of the servers and of the objects, with a state of their own: the new state, the
    message as they leave it, and whether they return or raise. *)
Record eds (U : Type) := mkeds {
  ed_srv : U -> nat -> msg -> U * msg * res unit;
  ed_obj : U -> Z -> nat -> msg -> U * msg * res unit }.
Arguments mkeds {U}. Arguments ed_srv {U}. Arguments ed_obj {U}.

Section Edit.
Context {PS : PySet} {U : Type} (w : os) (ed : eds U).

(** Subject.notify of the object under [key], subject.py:46-54. *)
Fixpoint ed_tell (key : Z) (l : list nat) (u : U) (tr : trace) (req : msg) : U * trace * msg * res unit :=
  match l with
  | [] => (u, tr, req, Ok tt)
  | n :: r =>
      match ed_obj ed u key n req with
      | (u1, req1, Err e) => (u1, tr ++ [EvObjObs key n req], req1, Err e)
      | (u1, req1, Ok _) => ed_tell key r u1 (tr ++ [EvObjObs key n req]) req1
      end
  end.

(** LocalNode.message_received, local_node.py:81-104. *)
Definition ed_local (u : U) (tr : trace) (s : lnode) (m : msg) : U * lnode * trace * res unit :=
  if is_enabled IGNORE_SELF_MESSAGE s && truthy (is_self_message m s) then (u, s, tr, Ok tt)
  else
    match copy_msg m with
    | Err e => (u, s, tr, Err e)
    | Ok req =>
      let key := o_code (new_object (PInt (m_DEOJ req))) in
      match get_object (PInt (m_DEOJ req)) (ln_node s) with
      | None => (u, s, tr, Ok tt)
      | Some o =>
        match ed_tell key (o_obs o) u tr req with
        | (u1, tr1, _, Err e) => (u1, s, tr1, Err e)
        | (u1, tr1, req1, Ok _) =>
          match obj_message_received o req1 with
          | (o', _, Err e) => (u1, put_obj key o' s, tr1, Err e)
          | (o', _, Ok None) => (u1, put_obj key o' s, tr1, Ok tt)
          | (o', _, Ok (Some rsp)) =>
              let s1 := put_obj key o' s in
              if is_notification (m_ESV rsp) then
                match local_announce w tr1 s1 rsp with
                | (s2, tr2, _, Err e) => (u1, s2, tr2, Err e)
                | (s2, tr2, _, Ok _) => (u1, s2, tr2, Ok tt)
                end
              else
                match local_send w tr1 s1 rsp (m_from req1) with
                | (s2, tr2, _, Err e) => (u1, s2, tr2, Err e)
                | (s2, tr2, _, Ok _) => (u1, s2, tr2, Ok tt)
                end
          end
        end
      end
    end.

(** Controller.message_received, controller.py:277-303. *)
Definition ed_ctl (u : U) (tr : trace) (s : lnode) (proto : msg) : U * lnode * trace * res unit :=
  if is_enabled IGNORE_SELF_MESSAGE s && truthy (is_self_message proto s) then (u, s, tr, Ok tt)
  else
    let r1 := if is_request (m_ESV proto) then ed_local u tr s proto else (u, s, tr, Ok tt) in
    match r1 with
    | (u1, s1, tr1, Err e) => (u1, s1, tr1, Err e)
    | (u1, s1, tr1, Ok _) =>
      if negb (is_response (m_ESV proto)) then (u1, s1, tr1, Ok tt)
      else
        match ln_ctl s1 with
        | None => (u1, s1, tr1, Ok tt)
        | Some c =>
            let '(c', tr2, r) := ctl_response w tr1 c proto in (u1, set_ln_ctl (Some c') s1, tr2, r)
        end
    end.
Definition ed_received (u : U) (tr : trace) (s : lnode) (m : msg) : U * lnode * trace * res unit :=
  match ln_ctl s with
  | None => ed_local u tr s m
  | Some _ => ed_ctl u tr s m
  end.

(** observer.message_received(msg) for an observer of a server; the message as it is left. *)
Definition ed_hear (u : U) (tr : trace) (s : lnode) (o : obs) (m : msg) : U * lnode * trace * msg * res unit :=
  match o with
  | ONode => let '(u1, s1, tr1, r) := ed_received u tr s m in (u1, s1, tr1, m, r)
  | OUser n => let '(u1, m1, r) := ed_srv ed u n m in (u1, s, tr ++ [EvObs n m], m1, r)
  | ONone => (u, s, tr, m, Err AttributeError)
  end.
(** Subject.notify of a server. *)
Fixpoint ed_notify (u : U) (tr : trace) (s : lnode) (l : list obs) (m : msg) : U * lnode * trace * res unit :=
  match l with
  | [] => (u, s, tr, Ok tt)
  | o :: r =>
      match ed_hear u tr s o m with
      | (u1, s1, tr1, _, Err e) => (u1, s1, tr1, Err e)
      | (u1, s1, tr1, m1, Ok _) => ed_notify u1 tr1 s1 r m1
      end
  end.

(** Server.run, server.py:53-72. *)
Definition ed_deliver (u : U) (tr : trace) (s : lnode) (i : nat) (d : datagram) : U * lnode * trace :=
  match nth_error (g_servers (ln_mgr s)) i with
  | None => (u, s, tr)
  | Some v =>
    if negb (s_alive v) then (u, s, tr)
    else
      match parse_bytes new_msg (firstn RECV_SIZE (fst d)) with
      | (_, Err _) => (u, kill i s, tr)
      | (_, Ok false) => (u, s, tr)
      | (m, Ok true) =>
        let m := set_from (Some (snd d)) m in
        match to_string m with
        | Err _ => (u, kill i s, tr)
        | Ok _ =>
          match ed_notify u tr s (s_obs v) m with
          | (u1, s1, tr1, Err _) => (u1, kill i s1, tr1)
          | (u1, s1, tr1, Ok _) => (u1, s1, tr1)
          end
        end
      end
  end.
Fixpoint ed_run (u : U) (tr : trace) (s : lnode) (l : list (nat * datagram)) : U * lnode * trace :=
  match l with
  | [] => (u, s, tr)
  | (i, d) :: r => let '(u1, s1, tr1) := ed_deliver u tr s i d in ed_run u1 tr1 s1 r
  end.

End Edit.
