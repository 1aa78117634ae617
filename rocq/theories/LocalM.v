(** Model of /repo/uecho/local_node.py.  The functions take the state of a LocalNode; where a
    Controller overrides a method the choice is made by [ln_ctl]. *)
From Verif Require Import PyBase BytesM EsvM MsgM PropM ObjM DbData DbM NodeM.

(** option.py:15. *)
Definition IGNORE_SELF_MESSAGE : Z := 0x01.

Section Local.
Context {PS : PySet}.

(** self.__node_profile_obj._update_map_properties(self.objects), local_node.py:44 and
    node_profile.py:143-150, on the profile wherever it is. *)
Definition update_profile (s : lnode) : lnode * res bool :=
  let codes := map o_code (node_objects (ln_node s)) in
  match ln_prof s with
  | Detached o =>
      let '(o', r) := np_update_map codes o in (set_ln_prof (Detached o') s, r)
  | InTable =>
      match zget NODE_PROFILE_CODE (ln_objs s) with
      | None => (s, Ok false)   (* never: the profile is in the table *)
      | Some o => let '(o', r) := np_update_map codes o in (put_obj NODE_PROFILE_CODE o' s, r)
      end
  end.

(** LocalNode.add_object, local_node.py:41-44, for an Object other than the node's own profile. *)
Definition local_add_object (o : option obj) (s : lnode) : lnode * res bool :=
  match o with
  | None => (s, Ok false)
  | Some x =>
      let s1 :=
        if o_code x =? NODE_PROFILE_CODE then
          match ln_prof s, zget NODE_PROFILE_CODE (ln_objs s) with
          | InTable, Some p => set_ln_prof (Detached p) s
          | _, _ => s
          end
        else s in
      update_profile (set_ln_node (fst (node_add_object o (ln_node s1))) s1)
  end.

(** LocalNode() and Controller(), local_node.py:31-36, controller.py:85-91; [r]: random bytes. *)
Definition new_local (controller : bool) (r : np_random) : lnode * res unit :=
  match new_node_profile r with
  | (o, Err e) => (mkln (new_node None) (Detached o) 0 new_manager None, Err e)
  | (o, Ok _) =>
      let s := mkln (mknode None [(o_code o, o)]) InTable IGNORE_SELF_MESSAGE new_manager
                 (if controller then Some new_ctl else None) in
      match update_profile s with
      | (s', Err e) => (s', Err e)
      | (s', Ok _) => (s', Ok tt)
      end
  end.
Definition new_local_node (r : np_random) : lnode * res unit := new_local false r.
Definition new_controller (r : np_random) : lnode * res unit := new_local true r.

End Local.

(** LocalNode.add_observer, local_node.py:46-47. *)
Definition local_add_observer (o : obs) (s : lnode) : lnode :=
  set_ln_mgr (mgr_add_observer o (ln_mgr s)) s.

(** LocalNode.announce_message, local_node.py:49-50, and the override
    Controller.announce_message, controller.py:155-159. *)
Definition local_announce (w : os) (tr : trace) (s : lnode) (m : msg)
  : lnode * trace * msg * res bool :=
  let m := match ln_ctl s with None => m | Some _ => set_SEOJ NODE_PROFILE_CODE m end in
  let '(g, tr', m', r) := mgr_announce w tr (ln_mgr s) m in
  (set_ln_mgr g s, tr', m', r).
(** LocalNode.send_message, local_node.py:52-53, and the override Controller.send_message,
    controller.py:161-177, for a destination that is a tuple (or None). *)
Definition local_send (w : os) (tr : trace) (s : lnode) (m : msg) (a : option addr)
  : lnode * trace * msg * res bool :=
  let m := match ln_ctl s with None => m | Some _ => set_SEOJ NODE_PROFILE_CODE m end in
  let '(g, tr', m', r) := mgr_send w tr (ln_mgr s) m a in
  (set_ln_mgr g s, tr', m', r).

(** LocalNode.set_enabled, is_enabled, local_node.py:55-65. *)
Definition set_enabled (opt : Z) (v : bool) (s : lnode) : lnode * bool :=
  (set_ln_opts (if v then Z.lor (ln_opts s) opt else Z.land (ln_opts s) (Z.lnot opt)) s, true).
Definition is_enabled (opt : Z) (s : lnode) : bool :=
  if Z.land (ln_opts s) opt =? 0 then false else true.

(** LocalNode.start, local_node.py:67-72: the parameter is not used. *)
Definition local_start (w : os) (tr : trace) (s : lnode) (ifaddrs : list string)
  : lnode * trace * res bool :=
  match mgr_start w tr (ln_mgr s) [] with
  | (g, tr1, Ok true) =>
      let n := fst (set_address (Some (mgr_ifaddr g, mgr_port g)) (ln_node s)) in
      let g1 := mgr_add_observer ONode g in
      (set_ln_mgr g1 (set_ln_node n s), tr1, Ok true)
  | (g, tr1, r) => (set_ln_mgr g s, tr1, r)
  end.
(** LocalNode.stop, local_node.py:74-75, controller.py:216-221. *)
Definition local_stop (tr : trace) (s : lnode) : lnode * trace * bool :=
  let '(g, tr', r) := mgr_stop tr (ln_mgr s) in (set_ln_mgr g s, tr', r).

(** Equality of addresses; a node that was never started has the empty tuple. *)
Definition addr_eqb (a b : addr) : bool := String.eqb (fst a) (fst b) && (snd a =? snd b).
Definition from_is (m : msg) (s : lnode) : bool :=
  match m_from m, ln_addr s with Some a, Some b => addr_eqb a b | _, _ => false end.
(** _is_self_message, local_node.py:77-79: False, or None when the addresses are equal. *)
Definition is_self_message (m : msg) (s : lnode) : option bool :=
  if negb (from_is m s) then Some false else None.
Definition truthy (b : option bool) : bool := match b with Some true => true | _ => false end.

(** LocalNode.message_received, local_node.py:81-104. *)
Definition local_received (w : os) (tr : trace) (s : lnode) (m : msg) : lnode * trace * res unit :=
  if is_enabled IGNORE_SELF_MESSAGE s && truthy (is_self_message m s) then (s, tr, Ok tt)
  else
    match copy_msg m with
    | Err e => (s, tr, Err e)
    | Ok req =>
      let key := o_code (new_object (PInt (m_DEOJ req))) in
      match get_object (PInt (m_DEOJ req)) (ln_node s) with
      | None => (s, tr, Ok tt)
      | Some o =>
        match calls w tr (map (fun n => EvObjObs key n req) (o_obs o)) with
        | (tr1, Err e) => (s, tr1, Err e)
        | (tr1, Ok _) =>
          match obj_message_received o req with
          | (o', _, Err e) => (put_obj key o' s, tr1, Err e)
          | (o', _, Ok None) => (put_obj key o' s, tr1, Ok tt)
          | (o', _, Ok (Some rsp)) =>
              let s1 := put_obj key o' s in
              if is_notification (m_ESV rsp) then
                match local_announce w tr1 s1 rsp with
                | (s2, tr2, _, Err e) => (s2, tr2, Err e)
                | (s2, tr2, _, Ok _) => (s2, tr2, Ok tt)
                end
              else
                match local_send w tr1 s1 rsp (m_from req) with
                | (s2, tr2, _, Err e) => (s2, tr2, Err e)
                | (s2, tr2, _, Ok _) => (s2, tr2, Ok tt)
                end
          end
        end
      end
    end.
