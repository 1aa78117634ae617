(** Model of /repo/uecho/local_node.py:81-104 and object.py:330-436 where the observers of objects and
    the request handlers are programs that use the node: they read and store property data of its
    objects, announce and send messages (/repo/uecho/object.py:236-252, node.py:70-82, local_node.py:49-53),
    keep a state of their own and raise.  They do not add objects, start or stop the node or change
    handlers and observers (RunM, StopM, ListenM are about these). *)
From Verif Require Import PyBase BytesM EsvM MsgM PropM ObjM DbData DbM NodeM LocalM.

(** A program with own state [U] and result [A].  Every call hands its result, an exception
    included, to the rest of the program; the message is handed back because the manager may have
    set its TID. *)
Inductive prog (U A : Type) :=
| PRet (u : U) (r : res A)
| PGet (code p : Z) (k : res (option (list Z)) -> prog U A)             (* node.get_object(code).get_property_data(p) *)
| PPut (code p : Z) (d : list Z) (k : res bool -> prog U A)             (* node.get_object(code).set_property_data(p, d) *)
| PAnnounce (m : msg) (k : msg -> res bool -> prog U A)                 (* node.announce_message(m) *)
| PSend (m : msg) (a : option addr) (k : msg -> res bool -> prog U A).  (* node.send_message(m, a) *)
Arguments PRet {U A}. Arguments PGet {U A}. Arguments PPut {U A}. Arguments PAnnounce {U A}. Arguments PSend {U A}.

(** The observers (by number) and the request handler of every object (by its code). *)
Record cbs (U : Type) := mkcbs {
  cb_obs : U -> Z -> nat -> msg -> prog U unit;
  cb_read : U -> Z -> option oprop -> prog U bool;
  cb_write : U -> Z -> oprop -> list Z -> prog U bool }.
Arguments cb_obs {U}. Arguments cb_read {U}. Arguments cb_write {U}.

(** The state: the callbacks' own, the trace, the node. *)
Record cst (U : Type) := mkcst { q_u : U; q_tr : trace; q_s : lnode }.
Arguments mkcst {U}. Arguments q_u {U}. Arguments q_tr {U}. Arguments q_s {U}.

Section Cb.
Context {U : Type} (w : os) (cb : cbs U).

(** obj_prop.data = data for a property of the object stored under [key]. *)
Definition put_data (key code : Z) (d : list Z) (s : lnode) : lnode :=
  match zget key (ln_objs s) with Some o => put_obj key (store code d o) s | None => s end.

Fixpoint run_prog {A} (c : prog U A) (tr : trace) (s : lnode) : cst U * res A :=
  match c with
  | PRet u r => (mkcst u tr s, r)
  | PGet code p k =>
      match get_object (PInt code) (ln_node s) with
      | None => run_prog (k (Err AttributeError)) tr s
      | Some o => run_prog (k (Ok (get_property_data p o))) tr s
      end
  | PPut code p d k =>
      match get_object (PInt code) (ln_node s) with
      | None => run_prog (k (Err AttributeError)) tr s
      | Some o => run_prog (k (Ok (snd (set_property_data p d o)))) tr (put_obj code (fst (set_property_data p d o)) s)
      end
  | PAnnounce m k => let '(s1, tr1, m1, r) := local_announce w tr s m in run_prog (k m1 r) tr1 s1
  | PSend m a k => let '(s1, tr1, m1, r) := local_send w tr s m a in run_prog (k m1 r) tr1 s1
  end.

(** Subject.notify of the object under [key], subject.py:46-54. *)
Fixpoint cb_tell (key : Z) (req : msg) (l : list nat) (q : cst U) : cst U * res unit :=
  match l with
  | [] => (q, Ok tt)
  | n :: r =>
      match run_prog (cb_obs cb (q_u q) key n req) (q_tr q ++ [EvObjObs key n req]) (q_s q) with
      | (q1, Err e) => (q1, Err e)
      | (q1, Ok _) => cb_tell key req r q1
      end
  end.

(** self.__request_handler.property_read_requested(p), property_write_requested(p, d). *)
Definition ask_read (key : Z) (o : obj) (p : option oprop) (q : cst U) : cst U * res bool :=
  match o_handler o with
  | HUser _ => run_prog (cb_read cb (q_u q) key p) (q_tr q) (q_s q)
  | _ => (q, snd (read_requested o p))
  end.
Definition ask_write (key : Z) (o : obj) (p : oprop) (d : list Z) (q : cst U) : cst U * res bool :=
  match o_handler o with
  | HUser _ => run_prog (cb_write cb (q_u q) key p d) (q_tr q) (q_s q)
  | _ => (q, snd (write_requested o p d))
  end.
(** The data of property [code] of the object under [key], obtained before as [p]. *)
Definition cb_current (key code : Z) (p : oprop) (s : lnode) : list Z :=
  match zget key (ln_objs s) with Some o => current code p o | None => op_data p end.

(** One write, object.py:350-359 and 377-382. *)
Definition cb_do_write (key : Z) (q : cst U) (mp : prop) : cst U * res (prop * bool) :=
  match zget key (ln_objs (q_s q)) with
  | None => (q, Err AttributeError)     (* never: the object is in the table *)
  | Some o =>
      match get_property (p_code mp) o with
      | None => (q, Ok (mkprop (p_code mp) [], false))
      | Some p =>
          match ask_write key o p (p_data mp) q with
          | (q1, Err e) => (q1, Err e)
          | (q1, Ok true) => (mkcst (q_u q1) (q_tr q1) (put_data key (p_code mp) (p_data mp) (q_s q1)), Ok (mkprop (p_code mp) [], true))
          | (q1, Ok false) => (q1, Ok (mkprop (p_code mp) (p_data mp), false))
          end
      end
  end.
(** One read, object.py:369-375 and 382. *)
Definition cb_do_read (key : Z) (q : cst U) (mp : prop) : cst U * res (prop * bool) :=
  match zget key (ln_objs (q_s q)) with
  | None => (q, Err AttributeError)
  | Some o =>
      match get_property (p_code mp) o with
      | None => (q, Ok (mkprop (p_code mp) [], false))
      | Some p =>
          match ask_read key o (Some p) q with
          | (q1, Err e) => (q1, Err e)
          | (q1, Ok true) => (q1, Ok (mkprop (p_code mp) (cb_current key (p_code mp) p (q_s q1)), true))
          | (q1, Ok false) => (q1, Ok (mkprop (p_code mp) [], false))
          end
      end
  end.
(** One read of a write-read request, object.py:360-366. *)
Definition cb_do_read_wr (key : Z) (q : cst U) (mp : prop) : cst U * res (prop * bool) :=
  match zget key (ln_objs (q_s q)) with
  | None => (q, Err AttributeError)
  | Some o =>
      let op := get_property (p_code mp) o in
      match ask_read key o op q with
      | (q1, Err e) => (q1, Err e)
      | (q1, Ok true) =>
          match op with
          | None => (q1, Err AttributeError)
          | Some p => (q1, Ok (mkprop (p_code mp) (cb_current key (p_code mp) p (q_s q1)), true))
          end
      | (q1, Ok false) => (q1, Ok (mkprop (p_code mp) [], false))
      end
  end.
Definition cb_do_skip (q : cst U) (mp : prop) : cst U * res (prop * bool) := (q, Ok (mkprop (p_code mp) [], false)).
(** The loops, object.py:349-382. *)
Fixpoint cb_loop (f : cst U -> prop -> cst U * res (prop * bool)) (q : cst U) (l : list prop) : cst U * res (list prop * Z) :=
  match l with
  | [] => (q, Ok ([], 0))
  | mp :: r =>
      match f q mp with
      | (q1, Err e) => (q1, Err e)
      | (q1, Ok (rp, acc)) =>
          match cb_loop f q1 r with
          | (q2, Err e) => (q2, Err e)
          | (q2, Ok (rps, n)) => (q2, Ok (rp :: rps, (if acc then 1 else 0) + n))
          end
      end
  end.
Definition cb_do_plain (key esv : Z) : cst U -> prop -> cst U * res (prop * bool) :=
  if is_read_request esv then cb_do_read key
  else if is_write_request esv then cb_do_write key
  else cb_do_skip.

(** Object.message_received after the observers were told, object.py:336-436; [o]: the object. *)
Definition cb_object (key : Z) (o : obj) (req : msg) (q : cst U) : cst U * res (option msg) :=
  if negb (is_request (m_ESV req)) then (q, Ok None)
  else
    match o_handler o with
    | HNone => (q, Ok None)
    | _ =>
      let res0 := set_SEOJ (m_DEOJ req) (set_DEOJ (m_SEOJ req) (set_TID (m_TID req) new_msg)) in
      let finish (q' : cst U) (res1 : msg) (accepted : Z) :=
        match response_esv (m_ESV req) (accepted =? OPC req + OPCSet req + OPCGet req) with
        | None => (q', Ok None)
        | Some e => (q', Ok (Some (set_ESV e res1)))
        end in
      if is_write_read_request (m_ESV req) then
        match cb_loop (cb_do_write key) q (m_sets req) with
        | (q1, Err e) => (q1, Err e)
        | (q1, Ok (sets, n)) =>
          match cb_loop (cb_do_read_wr key) q1 (m_gets req) with
          | (q2, Err e) => (q2, Err e)
          | (q2, Ok (gets, k)) => finish q2 (set_gets gets (set_sets sets res0)) (n + k)
          end
        end
      else
        match cb_loop (cb_do_plain key (m_ESV req)) q (m_props req) with
        | (q1, Err e) => (q1, Err e)
        | (q1, Ok (ps, n)) => finish q1 (set_props ps res0) n
        end
    end.

(** The answer, local_node.py:95-104. *)
Definition cb_answer (req rsp : msg) (q : cst U) : cst U * res unit :=
  let '(s1, tr1, _, r) := if is_notification (m_ESV rsp) then local_announce w (q_tr q) (q_s q) rsp else local_send w (q_tr q) (q_s q) rsp (m_from req) in
  (mkcst (q_u q) tr1 s1, match r with Ok _ => Ok tt | Err e => Err e end).

(** LocalNode.message_received, local_node.py:81-104. *)
Definition cb_received (q : cst U) (m : msg) : cst U * res unit :=
  if is_enabled IGNORE_SELF_MESSAGE (q_s q) && truthy (is_self_message m (q_s q)) then (q, Ok tt)
  else
    match copy_msg m with
    | Err e => (q, Err e)
    | Ok req =>
      let key := o_code (new_object (PInt (m_DEOJ req))) in
      match get_object (PInt (m_DEOJ req)) (ln_node (q_s q)) with
      | None => (q, Ok tt)
      | Some o =>
        match cb_tell key req (o_obs o) q with
        | (q1, Err e) => (q1, Err e)
        | (q1, Ok _) =>
          match cb_object key o req q1 with
          | (q2, Err e) => (q2, Err e)
          | (q2, Ok None) => (q2, Ok tt)
          | (q2, Ok (Some rsp)) => cb_answer req rsp q2
          end
        end
      end
    end.
End Cb.
