(** Model of /repo/uecho/remote_node.py, /repo/uecho/controller.py, the sending methods of
    /repo/uecho/object.py and /repo/uecho/property.py, and Server.run of
    /repo/uecho/frame/server.py.
    A Controller is an [lnode] whose [ln_ctl] is [Some c].  The condition variable and the
    waiting of post_message are modelled in PostM.v. *)
From Verif Require Import PyBase BytesM EsvM MsgM PropM ObjM DbData DbM NodeM LocalM.

Section Ctrl.
Context {PS : PySet}.

(** ** remote_node.py *)

(** RemoteNode(addr), remote_node.py:30-33. *)
Definition new_remote (a : option addr) : node * res unit :=
  let n := new_node a in
  match new_standard (PInt 0x0EF001) with
  | (_, Err e) => (n, Err e)
  | (o, Ok _) => (fst (node_add_object (Some o) n), Ok tt)
  end.

(** The loop of parse_message, remote_node.py:51-55; [k] iterations are left, [n] is done. *)
Fixpoint parse_objects (data : list Z) (k n : nat) (nd : node) : node * res unit :=
  match k with
  | O => (nd, Ok tt)
  | S k' =>
      let offset := (3 * n + 1)%nat in
      let code_bytes := py_slice data offset (offset + 3) in
      match new_standard (PInt (to_int code_bytes)) with
      | (_, Err e) => (nd, Err e)
      | (o, Ok _) => parse_objects data k' (S n) (fst (node_add_object (Some o) nd))
      end
  end.

(** RemoteNode.parse_message, remote_node.py:35-57 (the argument is a Message). *)
Definition remote_parse (m : msg) (nd : node) : node * res bool :=
  if OPC m <? 1 then (nd, Ok false)
  else
    match m_props m with
    | [] => (nd, Err IndexError)   (* never: OPC is the length *)
    | prop :: _ =>
        if negb (p_code prop =? 0xD5) && negb (p_code prop =? 0xD6) then (nd, Ok false)
        else
          match py_index (p_data prop) 0 with
          | Err e => (nd, Err e)
          | Ok instance_count =>
              if zlen (p_data prop) <? instance_count * 3 + 1 then (nd, Ok false)
              else
                match parse_objects (p_data prop) (Z.to_nat instance_count) 0 nd with
                | (nd', Err e) => (nd', Err e)
                | (nd', Ok _) => (nd', Ok true)
                end
          end
    end.

(** ** controller.py *)

Definition set_found (d : list (string * node)) (c : ctl) : ctl :=
  mkctl d (c_req c) (c_resp c) (c_listeners c).
Definition set_post (req resp : option msg) (c : ctl) : ctl :=
  mkctl (c_found c) req resp (c_listeners c).
Definition set_listeners (l : list nat) (c : ctl) : ctl :=
  mkctl (c_found c) (c_req c) (c_resp c) l.

(** __PostMessage.is_waiting, controller.py:72-77. *)
Definition is_waiting (c : ctl) : bool :=
  match c_req c with
  | None => false
  | Some _ => match c_resp c with Some _ => false | None => true end
  end.

(** Controller.nodes, controller.py:97-107. *)
Definition ctl_nodes (c : ctl) : list node := dvals (c_found c).

(** add_listener, remove_listener, controller.py:109-123 (ValueError if absent). *)
Definition add_listener (l : nat) (c : ctl) : ctl := set_listeners (c_listeners c ++ [l]) c.
Fixpoint remove_first (l : nat) (ls : list nat) : option (list nat) :=
  match ls with
  | [] => None
  | x :: r => if Nat.eqb l x then Some r
              else match remove_first l r with Some r' => Some (x :: r') | None => None end
  end.
Definition remove_listener (l : nat) (c : ctl) : ctl * res unit :=
  match remove_first l (c_listeners c) with
  | Some ls => (set_listeners ls c, Ok tt)
  | None => (c, Err ValueError)
  end.

(** get_node, controller.py:134-153.  Argument: str, tuple (its first element), or other. *)
Inductive addr_arg := GAStr (s : string) | GATup (ip : string) | GAOther.
Fixpoint get_node_loop (w : os) (tr : trace) (d : list (string * node)) (a : addr_arg)
  : res (option node) :=
  match d with
  | [] => Ok None
  | (addr_key, n) :: r =>
      match a with
      | GAStr s =>
          if String.eqb s addr_key then Ok (Some n)
          else
            ipaddr <- os_resolve w tr s;;
            if String.eqb ipaddr addr_key then Ok (Some n) else get_node_loop w tr r a
      | GATup ip => if String.eqb ip addr_key then Ok (Some n) else get_node_loop w tr r a
      | GAOther => get_node_loop w tr r a
      end
  end.
Definition get_node (w : os) (tr : trace) (c : ctl) (a : addr_arg) : res (option node) :=
  get_node_loop w tr (c_found c) a.

(** Destinations of send_message and post_message. *)
Inductive dest := DTup (a : addr) | DStr (s : string) | DNode (n : node) | DOther.
(** The address of a destination, controller.py:172-176. *)
Definition dest_addr (d : dest) : option addr :=
  match d with
  | DNode n => Some (node_ip n, node_port n)
  | DStr s => Some (s, PORT)
  | DTup a => Some a
  | DOther => None
  end.
(** Controller.send_message, controller.py:161-177. *)
Definition ctl_send (w : os) (tr : trace) (s : lnode) (m : msg) (d : dest)
  : lnode * trace * msg * res bool := local_send w tr s m (dest_addr d).

(** Controller.search, controller.py:179-183. *)
Definition ctl_search (w : os) (tr : trace) (s : lnode) : lnode * trace * res bool :=
  let '(s', tr', _, r) := local_announce w tr s search_message in (s', tr', r).

(** Controller.start, controller.py:207-214. *)
Definition ctl_start (w : os) (tr : trace) (s : lnode) : lnode * trace * res bool :=
  match local_start w tr s [] with
  | (s1, tr1, Ok true) => ctl_search w tr1 s1
  | x => x
  end.

(** The first part of post_message, controller.py:195-199: None if it returns at once.  The
    request stored in __last_post_msg is the message that send_message changes. *)
Definition post_begin (w : os) (tr : trace) (s : lnode) (m : msg) (d : dest)
  : lnode * trace * msg * res bool :=
  match ln_ctl s with
  | None => (s, tr, m, Err AttributeError)   (* a LocalNode has no post_message *)
  | Some c =>
      let '(s1, tr1, m1, r) := ctl_send w tr s m d in
      (set_ln_ctl (Some (set_post (Some m1) None c)) s1, tr1, m1, r)
  end.
(** The last line of post_message, controller.py:205. *)
Definition post_end (s : lnode) : option msg :=
  match ln_ctl s with None => None | Some c => c_resp c end.

(** __notify_node_added etc., controller.py:223-237.  __notify_node_updated calls node_add. *)
Definition notify_node_added (w : os) (tr : trace) (c : ctl) (n : node) : trace * res unit :=
  calls w tr (map (fun l => EvNodeAdd l n) (c_listeners c)).
Definition notify_node_updated (w : os) (tr : trace) (c : ctl) (n : node) : trace * res unit :=
  calls w tr (map (fun l => EvNodeAdd l n) (c_listeners c)).
Definition notify_object_updated (w : os) (tr : trace) (c : ctl) (n : node) (o : obj) : trace * res unit :=
  calls w tr (map (fun l => EvObjUpd l n o) (c_listeners c)).
Definition notify_property_updated (w : os) (tr : trace) (c : ctl) (n : node) (o : obj) (p : oprop)
  : trace * res unit :=
  calls w tr (map (fun l => EvPropUpd l n o p) (c_listeners c)).

(** _add_found_node, controller.py:239-251 (the argument is a RemoteNode). *)
Definition add_found_node (w : os) (tr : trace) (c : ctl) (n : node) : ctl * trace * res bool :=
  let ip := node_ip n in
  let r := match sget ip (c_found c) with
           | None => notify_node_added w tr c n
           | Some _ => notify_node_updated w tr c n
           end in
  match r with
  | (tr1, Err e) => (c, tr1, Err e)
  | (tr1, Ok _) => (set_found (sset ip n (c_found c)) c, tr1, Ok true)
  end.

(** The loop of _update_properties, controller.py:262-271.  [n] and [o] are the current values
    of the node and of its object stored under [key]. *)
Definition put_node_obj (key : Z) (o : obj) (n : node) : node :=
  mknode (n_addr n) (zset key o (n_objs n)).
Fixpoint update_loop (w : os) (tr : trace) (c : ctl) (key : Z) (n : node) (o : obj)
  (l : list prop) (updated : bool) : node * obj * trace * res bool :=
  match l with
  | [] => (n, o, tr, Ok updated)
  | mp :: r =>
      match get_property (p_code mp) o with
      | None => update_loop w tr c key n o r updated
      | Some p =>
          if bytes_eqb (op_data p) (p_data mp) then update_loop w tr c key n o r updated
          else
            let p' := set_op_data (p_data mp) p in
            let o' := store (p_code mp) (p_data mp) o in
            let n' := put_node_obj key o' n in
            match notify_property_updated w tr c n' o' p' with
            | (tr1, Err e) => (n', o', tr1, Err e)
            | (tr1, Ok _) => update_loop w tr1 c key n' o' r true
            end
      end
  end.

(** get_node(from_addr) with the key under which the node is stored. *)
Definition from_arg (m : msg) : addr_arg :=
  match m_from m with Some a => GATup (fst a) | None => GAOther end.

(** _update_properties, controller.py:253-275.  [node is Node] (line 255) is never true, so an
    unknown node makes None.get_object raise AttributeError. *)
Definition update_properties (w : os) (tr : trace) (c : ctl) (m : msg) : ctl * trace * res unit :=
  match get_node w tr c (from_arg m) with
  | Err e => (c, tr, Err e)
  | Ok None => (c, tr, Err AttributeError)
  | Ok (Some n) =>
    let ip := match m_from m with Some a => fst a | None => ""%string end in
    let key := o_code (new_object (PInt (m_DEOJ m))) in
    match get_object (PInt (m_DEOJ m)) n with
    | None => (c, tr, Ok tt)
    | Some o =>
      match update_loop w tr c key n o (m_props m) false with
      | (n', _, tr1, Err e) => (set_found (sset ip n' (c_found c)) c, tr1, Err e)
      | (n', o', tr1, Ok updated) =>
        let c' := set_found (sset ip n' (c_found c)) c in
        if updated then
          match notify_object_updated w tr1 c' n' o' with
          | (tr2, Err e) => (c', tr2, Err e)
          | (tr2, Ok _) =>
              let '(tr3, r) := notify_node_updated w tr2 c' n' in (c', tr3, r)
          end
        else (c', tr1, Ok tt)
      end
    end
  end.

(** The part of Controller.message_received after the base class, controller.py:285-303. *)
Definition ctl_response (w : os) (tr : trace) (c : ctl) (proto : msg) : ctl * trace * res unit :=
  match copy_msg proto with
  | Err e => (c, tr, Err e)
  | Ok m =>
    match is_node_profile_message m with
    | Err e => (c, tr, Err e)
    | Ok np =>
      let found :=
        if np then
          match new_remote (m_from m) with
          | (_, Err e) => (c, tr, Err e)
          | (n, Ok _) =>
            match remote_parse m n with
            | (_, Err e) => (c, tr, Err e)
            | (_, Ok false) => (c, tr, Ok tt)
            | (n', Ok true) =>
                match add_found_node w tr c n' with
                | (c1, tr1, Err e) => (c1, tr1, Err e)
                | (c1, tr1, Ok _) => (c1, tr1, Ok tt)
                end
            end
          end
        else (c, tr, Ok tt) in
      match found with
      | (c1, tr1, Err e) => (c1, tr1, Err e)
      | (c1, tr1, Ok _) =>
        let upd :=
          if is_notification (m_ESV m) || is_read_response (m_ESV m)
          then update_properties w tr1 c1 m else (c1, tr1, Ok tt) in
        match upd with
        | (c2, tr2, Err e) => (c2, tr2, Err e)
        | (c2, tr2, Ok _) =>
          if is_waiting c2 then
            match c_req c2 with
            | Some req => if is_response_message req m
                          then (set_post (Some req) (Some m) c2, tr2, Ok tt)
                          else (c2, tr2, Ok tt)
            | None => (c2, tr2, Ok tt)
            end
          else (c2, tr2, Ok tt)
        end
      end
    end
  end.

(** Controller.message_received, controller.py:277-303. *)
Definition ctl_received (w : os) (tr : trace) (s : lnode) (proto : msg) : lnode * trace * res unit :=
  if is_enabled IGNORE_SELF_MESSAGE s && truthy (is_self_message proto s) then (s, tr, Ok tt)
  else
    let r1 := if is_request (m_ESV proto) then local_received w tr s proto else (s, tr, Ok tt) in
    match r1 with
    | (s1, tr1, Err e) => (s1, tr1, Err e)
    | (s1, tr1, Ok _) =>
      if negb (is_response (m_ESV proto)) then (s1, tr1, Ok tt)
      else
        match ln_ctl s1 with
        | None => (s1, tr1, Ok tt)
        | Some c =>
            let '(c', tr2, r) := ctl_response w tr1 c proto in (set_ln_ctl (Some c') s1, tr2, r)
        end
    end.

(** node.message_received(msg) for a LocalNode or a Controller. *)
Definition node_received (w : os) (tr : trace) (s : lnode) (m : msg) : lnode * trace * res unit :=
  match ln_ctl s with
  | None => local_received w tr s m
  | Some _ => ctl_received w tr s m
  end.

(** ** Server.run, frame/server.py:53-72 *)

(** observer.message_received(msg). *)
Definition tell (w : os) (tr : trace) (s : lnode) (o : obs) (m : msg) : lnode * trace * res unit :=
  match o with
  | ONode => node_received w tr s m
  | OUser n => let '(tr', r) := call w tr (EvObs n m) in (s, tr', r)
  | ONone => (s, tr, Err AttributeError)
  end.
(** Subject.notify, protocol/subject.py:47-54. *)
Fixpoint notify (w : os) (tr : trace) (s : lnode) (l : list obs) (m : msg) : lnode * trace * res unit :=
  match l with
  | [] => (s, tr, Ok tt)
  | o :: r =>
      match tell w tr s o m with
      | (s1, tr1, Err e) => (s1, tr1, Err e)
      | (s1, tr1, Ok _) => notify w tr1 s1 r m
      end
  end.

(** The receiving thread of server [i] ends. *)
Definition kill (i : nat) (s : lnode) : lnode :=
  let g := ln_mgr s in
  match nth_error (g_servers g) i with
  | None => s
  | Some v => set_ln_mgr (set_servers (upd (g_servers g) i
                (mksrv (s_uni v) (s_if v) (s_open v) false (s_obs v))) g) s
  end.

(** A datagram: bytes and source address. *)
Definition datagram := (list Z * addr)%type.
Definition RECV_SIZE : nat := 1024.

(** One turn of the loop of Server.run for the server with index [i], server.py:54-72: any
    exception ends the thread. *)
Definition deliver (w : os) (tr : trace) (s : lnode) (i : nat) (d : datagram) : lnode * trace :=
  match nth_error (g_servers (ln_mgr s)) i with
  | None => (s, tr)
  | Some v =>
    if negb (s_alive v) then (s, tr)
    else
      match parse_bytes new_msg (firstn RECV_SIZE (fst d)) with
      | (_, Err _) => (kill i s, tr)
      | (_, Ok false) => (s, tr)
      | (m, Ok true) =>
        let m := set_from (Some (snd d)) m in
        match to_string m with
        | Err _ => (kill i s, tr)
        | Ok _ =>
          match notify w tr s (s_obs v) m with
          | (s1, tr1, Err _) => (kill i s1, tr1)
          | (s1, tr1, Ok _) => (s1, tr1)
          end
        end
      end
  end.
(** Datagrams arriving one after the other at servers of the node. *)
Fixpoint run (w : os) (tr : trace) (s : lnode) (l : list (nat * datagram)) : lnode * trace :=
  match l with
  | [] => (s, tr)
  | (i, d) :: r => let '(s1, tr1) := deliver w tr s i d in run w tr1 s1 r
  end.

(** ** Object.send_message / post_message, Property.send_message / post_message *)

(** A property argument of __create_message: a pair (int, bytes) or anything else. *)
Inductive pair_arg := PPair (c : Z) (d : list Z) | PBad.
Inductive props_arg := LList (l : list pair_arg) | LBad.

(** Object.__create_message, object.py:269-286. *)
Fixpoint create_loop (m : msg) (l : list pair_arg) : option msg :=
  match l with
  | [] => Some m
  | PBad :: _ => None
  | PPair c d :: r => create_loop (fst (add_property (PAProp (mkprop c d)) m)) r
  end.
Definition create_message (code esv : Z) (props : props_arg) : option msg :=
  let m := set_ESV esv (set_DEOJ code new_msg) in
  match props with
  | LBad => None
  | LList l => create_loop m l
  end.

(** Object.send_message, object.py:300-313, for an object of a node found by controller [s]
    ([n] is that node). *)
Definition object_send (w : os) (tr : trace) (s : lnode) (n : node) (o : obj) (esv : Z) (props : props_arg)
  : lnode * trace * res bool :=
  match create_message (o_code o) esv props with
  | None => (s, tr, Ok false)
  | Some m => let '(s', tr', _, r) := ctl_send w tr s m (DNode n) in (s', tr', r)
  end.
(** Object.post_message, object.py:315-328, up to the wait: None = returns None at once. *)
Definition object_post (w : os) (tr : trace) (s : lnode) (n : node) (o : obj) (esv : Z) (props : props_arg)
  : lnode * trace * option msg * res bool :=
  match create_message (o_code o) esv props with
  | None => (s, tr, None, Ok false)
  | Some m => let '(s', tr', m', r) := post_begin w tr s m (DNode n) in (s', tr', Some m', r)
  end.
(** Property.send_message, Property.post_message, property.py:102-125. *)
Definition property_send (w : os) (tr : trace) (s : lnode) (n : node) (o : obj) (p : oprop) (esv : Z) (data : list Z)
  : lnode * trace * res bool := object_send w tr s n o esv (LList [PPair (op_code p) data]).
Definition property_post (w : os) (tr : trace) (s : lnode) (n : node) (o : obj) (p : oprop) (esv : Z) (data : list Z)
  : lnode * trace * option msg * res bool := object_post w tr s n o esv (LList [PPair (op_code p) data]).

End Ctrl.
