(** The remaining small parts of the library. *)
From Verif Require Import PyBase BytesM MsgM PropM ObjM DbData DbM NodeM LocalM CtrlM.

(** SuperObjectReadOnly(), super_object.py:112-117.  The class defines no
    property_write_requested: the one of SuperObject is in force. *)
Definition SUPER_READONLY_CODE : Z := 0x0EF002.
Definition new_super_readonly : obj :=
  let o := new_super_object PNone in
  set_o_code (fst (set_code (o_code o) (PInt SUPER_READONLY_CODE))) o.

Section Rest.
Context {PS : PySet}.

(** Manager.notify, frame/manager.py:59-61: server.notify(msg) for every server. *)
Fixpoint notify_servers (w : os) (tr : trace) (s : lnode) (l : list server) (m : msg) : lnode * trace * res unit :=
  match l with
  | [] => (s, tr, Ok tt)
  | v :: r =>
      match notify w tr s (s_obs v) m with
      | (s1, tr1, Err e) => (s1, tr1, Err e)
      | (s1, tr1, Ok _) => notify_servers w tr1 s1 r m
      end
  end.
Definition mgr_notify (w : os) (tr : trace) (s : lnode) (m : msg) : lnode * trace * res unit :=
  notify_servers w tr s (g_servers (ln_mgr s)) m.
End Rest.

(** Hex.from_string for any argument, uecho/util/hex.py:21-24 ([None]: no str). *)
Definition hex_from_any (v : option string) : res Z :=
  match v with None => Ok 0 | Some s => hex_from_string s end.
