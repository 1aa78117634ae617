(** Model of Object.message_received (/repo/uecho/object.py:330-436) run by several threads on one
    object: each server of a node (one unicast and one multicast server per interface) receives in
    its own thread.  The handler is a built-in one: its answers depend only on attributes that
    nobody changes, so that the only shared data are the data of the properties, and one step is the treatment
    of one property of a request (350-359, 360-366, 368-382): one load or one store.  The object's
    observers are not represented.  Every thread treats one request. *)
From Verif Require Import PyBase EsvM MsgM PropM ObjM TidM.

Inductive spc :=
| SBegin (req : msg)
| SSets (req : msg) (todo sets : list prop) (n : Z)          (* the loop of 350-359 *)
| SGets (req : msg) (todo sets gets : list prop) (n : Z)     (* the loop of 360-366 *)
| SProps (req : msg) (todo props : list prop) (n : Z)        (* the loop of 368-382 *)
| SDone (r : res (option msg)).
Record sst := mksst { v_obj : obj; v_pcs : list spc }.

(** Lines 342-345 and 384-436. *)
Definition answer_of (req : msg) (props sets gets : list prop) (n : Z) : res (option msg) :=
  let res0 := set_SEOJ (m_DEOJ req) (set_DEOJ (m_SEOJ req) (set_TID (m_TID req) new_msg)) in
  match response_esv (m_ESV req) (n =? OPC req + OPCSet req + OPCGet req) with
  | None => Ok None
  | Some e => Ok (Some (set_ESV e (set_gets gets (set_sets sets (set_props props res0)))))
  end.
Definition pstep (o : obj) (p : spc) : obj * spc :=
  match p with
  | SBegin req =>
      if negb (is_request (m_ESV req)) then (o, SDone (Ok None))
      else match o_handler o with
           | HNone => (o, SDone (Ok None))
           | _ => (o, if is_write_read_request (m_ESV req) then SSets req (m_sets req) [] 0
                      else SProps req (m_props req) [] 0)
           end
  | SSets req [] sets n => (o, SGets req (m_gets req) sets [] n)
  | SSets req (mp :: todo) sets n =>
      match do_write o mp with
      | (o1, Err e) => (o1, SDone (Err e))
      | (o1, Ok (rp, acc)) => (o1, SSets req todo (sets ++ [rp]) (n + if acc then 1 else 0))
      end
  | SGets req [] sets gets n => (o, SDone (answer_of req [] sets gets n))
  | SGets req (mp :: todo) sets gets n =>
      match do_read_wr o mp with
      | (o1, Err e) => (o1, SDone (Err e))
      | (o1, Ok (rp, acc)) => (o1, SGets req todo sets (gets ++ [rp]) (n + if acc then 1 else 0))
      end
  | SProps req [] props n => (o, SDone (answer_of req props [] [] n))
  | SProps req (mp :: todo) props n =>
      match do_plain (m_ESV req) o mp with
      | (o1, Err e) => (o1, SDone (Err e))
      | (o1, Ok (rp, acc)) => (o1, SProps req todo (props ++ [rp]) (n + if acc then 1 else 0))
      end
  | SDone r => (o, SDone r)
  end.
Definition vstep (s : sst) (i : nat) : sst :=
  match nth_error (v_pcs s) i with
  | None => s
  | Some p => let '(o, p') := pstep (v_obj s) p in mksst o (put (v_pcs s) i p')
  end.
(** A schedule names the thread that makes the next step. *)
Definition vrun (s : sst) (sched : list nat) : sst := fold_left vstep sched s.
