(** Model of send_message, post_message and get_node for destinations of any kind: /repo/uecho/controller.py:134-177
    and 185-205, local_node.py:52-53, frame/manager.py:71-79, frame/unicast_server.py:49-60.  CtrlM.v models the same
    methods for well-formed addresses. *)
From Verif Require Import PyBase BytesM MsgM PropM ObjM NodeM LocalM CtrlM AddrM.

(** What is raised: an exception of the other models, TypeError or OverflowError. *)
Inductive dexn := XLib (e : exn) | XType | XOverflow.
Inductive dres := RBool (b : bool) | RRaise (x : dexn).
Definition lift (r : res bool) : dres := match r with Ok b => RBool b | Err e => RRaise (XLib e) end.

(** A destination: a RemoteNode (its address, AddrM.v) or any other value. *)
Inductive ddest := TNode (n : anode) | TVal (v : pyval).

(** Values with a method ljust that sendto takes as a host: strings and byte strings.  [bs] says which of the
    other values are byte strings, and what they spell. *)
Definition host_of (bs : nat -> option string) (v : pyval) : option string :=
  match v with VStr s => Some s | VOther n => bs n | _ => None end.

(** sock.sendto(b, (h, y)) of CPython: a port that is no int is a TypeError, one that is no C int an OverflowError;
    then the host is resolved, then the port must be one of 0-65535. *)
Definition d_sendto (w : os) (tr : trace) (ifaddr : string) (b : list Z) (h : string) (y : pyval) : trace * dres :=
  match y with
  | VInt p =>
      if negb ((- 2 ^ 31 <=? p) && (p <? 2 ^ 31)) then (tr, RRaise XOverflow)
      else if (0 <=? p) && (p <=? 65535) then
        let r := os_sendto w tr ifaddr b (h, p) in
        (tr ++ [EvSend ifaddr b (h, p) r], match r with Err e => RRaise (XLib e) | Ok n => RBool (negb (n <=? 0)) end)
      else match os_resolve w tr h with Err e => (tr, RRaise (XLib e)) | Ok _ => (tr, RRaise XOverflow) end
  | _ => (tr, RRaise XType)
  end.

(** UnicastServer.send_message, unicast_server.py:49-60.  The second component: the new value of msg.to_addr. *)
Definition d_server_send (w : os) (bs : nat -> option string) (tr : trace) (s : server) (m : msg) (v : pyval)
  : trace * option pyval * dres :=
  match v with
  | VTuple [x; y] =>
      if negb (s_open s) then (tr, None, RBool false)
      else
        match host_of bs x with
        | None => (tr, Some v, RRaise (XLib AttributeError))
        | Some h =>
            match to_string m with
            | Err e => (tr, Some v, RRaise (XLib e))
            | Ok _ =>
                match to_bytes m with
                | Err e => (tr, Some v, RRaise (XLib e))
                | Ok b => let '(tr1, r) := d_sendto w tr (s_if s) b h y in (tr1, Some v, r)
                end
            end
        end
  | _ => (tr, None, RBool false)
  end.
(** Manager.send_message, manager.py:71-79. *)
Fixpoint d_send_loop (w : os) (bs : nat -> option string) (tr : trace) (l : list server) (m : msg) (to : option pyval) (v : pyval)
  : trace * option pyval * dres :=
  match l with
  | [] => (tr, to, RBool false)
  | s :: r =>
      if s_uni s then
        let '(tr1, to1, x) := d_server_send w bs tr s m v in
        let to2 := match to1 with Some _ => to1 | None => to end in
        match x with
        | RBool false => d_send_loop w bs tr1 r m to2 v
        | _ => (tr1, to2, x)
        end
      else d_send_loop w bs tr r m to v
  end.
Definition d_mgr_send (w : os) (bs : nat -> option string) (tr : trace) (g : manager) (m : msg) (v : pyval)
  : manager * trace * msg * option pyval * dres :=
  let '(g1, m1) := assign_TID g m in
  let '(tr1, to, x) := d_send_loop w bs tr (g_servers g1) m1 None v in (g1, tr1, m1, to, x).

(** The address that is handed on, controller.py:172-176; LocalNode.send_message hands on everything
    (local_node.py:52-53); a RemoteNode is then no tuple. *)
Definition handed_on (c : bool) (d : ddest) : pyval :=
  match d with
  | TNode n => if c then VTuple [a_ip n; a_port n] else VOther 0
  | TVal (VStr s) => if c then VTuple [VStr s; VInt 3610] else VStr s
  | TVal v => v
  end.
(** send_message of a Controller, controller.py:161-177, and of a LocalNode, local_node.py:52-53. *)
Definition d_send (w : os) (bs : nat -> option string) (tr : trace) (s : lnode) (m : msg) (d : ddest)
  : lnode * trace * msg * option pyval * dres :=
  let c := match ln_ctl s with None => false | Some _ => true end in
  let m := if c then set_SEOJ NODE_PROFILE_CODE m else m in
  let '(g, tr', m', to, r) := d_mgr_send w bs tr (ln_mgr s) m (handed_on c d) in
  (set_ln_mgr g s, tr', m', to, r).
(** post_message up to the wait, controller.py:195-199: the caller waits if the result is RBool true. *)
Definition d_post (w : os) (bs : nat -> option string) (tr : trace) (s : lnode) (m : msg) (d : ddest)
  : lnode * trace * msg * option pyval * dres :=
  match ln_ctl s with
  | None => (s, tr, m, None, RRaise (XLib AttributeError))   (* a LocalNode has no post_message *)
  | Some c =>
      let '(s1, tr1, m1, to, r) := d_send w bs tr s m d in
      (set_ln_ctl (Some (set_post (Some m1) None c)) s1, tr1, m1, to, r)
  end.

(** get_node, controller.py:134-153. *)
Fixpoint d_get_loop (w : os) (tr : trace) (l : list (string * node)) (v : pyval) : res (option node) :=
  match l with
  | [] => Ok None
  | (key, n) :: r =>
      match v with
      | VStr s =>
          if String.eqb s key then Ok (Some n)
          else ipaddr <- os_resolve w tr s;; if String.eqb ipaddr key then Ok (Some n) else d_get_loop w tr r v
      | VTuple [] => Err IndexError
      | VTuple (VStr s :: _) => if String.eqb s key then Ok (Some n) else d_get_loop w tr r v
      | _ => d_get_loop w tr r v
      end
  end.
Definition d_get (w : os) (tr : trace) (c : ctl) (v : pyval) : res (option node) := d_get_loop w tr (c_found c) v.
