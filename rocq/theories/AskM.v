(** Model of Object.message_received, /repo/uecho/object.py:330-436, with a handler that remembers every
    question it was asked (ObjectRequestHandler, object.py:25-52).  ObjM.v has the same loops with handlers that
    only see the number of earlier questions; C104_same compares the two. *)
From Verif Require Import PyBase BytesM EsvM MsgM PropM ObjM.

(** property_read_requested(prop), prop None where the code passes None, and property_write_requested(prop, data). *)
Inductive question := QRead (p : option oprop) | QWrite (p : oprop) (data : list Z).
(** What the handler does: the earlier questions, the properties of the object and the question give the
    properties afterwards and the returned value or exception. *)
Definition asker := list question -> props -> question -> props * res bool.
Record ast := mkast { a_props : props; a_asked : list question }.

Definition ask (h : asker) (s : ast) (q : question) : ast * res bool :=
  let '(ps, r) := h (a_asked s) (a_props s) q in (mkast ps (a_asked s ++ [q]), r).
(** obj_prop.data = data, object.py:355 and 378. *)
Definition a_store (code : Z) (data : list Z) (s : ast) : ast :=
  match zget code (a_props s) with
  | Some p => mkast (zset code (set_op_data data p) (a_props s)) (a_asked s)
  | None => s
  end.
(** obj_prop.data, object.py:364 and 374. *)
Definition a_current (code : Z) (p : oprop) (s : ast) : list Z :=
  match zget code (a_props s) with Some q => op_data q | None => op_data p end.

(** object.py:350-359 and 376-382 *)
Definition a_write (h : asker) (s : ast) (mp : prop) : ast * res (prop * bool) :=
  match zget (p_code mp) (a_props s) with
  | None => (s, Ok (mkprop (p_code mp) [], false))
  | Some p =>
      match ask h s (QWrite p (p_data mp)) with
      | (s1, Err e) => (s1, Err e)
      | (s1, Ok true) => (a_store (p_code mp) (p_data mp) s1, Ok (mkprop (p_code mp) [], true))
      | (s1, Ok false) => (s1, Ok (mkprop (p_code mp) (p_data mp), false))
      end
  end.
(** object.py:369-375 and 382 *)
Definition a_read (h : asker) (s : ast) (mp : prop) : ast * res (prop * bool) :=
  match zget (p_code mp) (a_props s) with
  | None => (s, Ok (mkprop (p_code mp) [], false))
  | Some p =>
      match ask h s (QRead (Some p)) with
      | (s1, Err e) => (s1, Err e)
      | (s1, Ok true) => (s1, Ok (mkprop (p_code mp) (a_current (p_code mp) p s1), true))
      | (s1, Ok false) => (s1, Ok (mkprop (p_code mp) [], false))
      end
  end.
(** object.py:360-366 *)
Definition a_read_wr (h : asker) (s : ast) (mp : prop) : ast * res (prop * bool) :=
  let op := zget (p_code mp) (a_props s) in
  match ask h s (QRead op) with
  | (s1, Err e) => (s1, Err e)
  | (s1, Ok true) =>
      match op with
      | None => (s1, Err AttributeError)
      | Some p => (s1, Ok (mkprop (p_code mp) (a_current (p_code mp) p s1), true))
      end
  | (s1, Ok false) => (s1, Ok (mkprop (p_code mp) [], false))
  end.
(** object.py:368-371 and 382: neither read nor written *)
Definition a_skip (s : ast) (mp : prop) : ast * res (prop * bool) := (s, Ok (mkprop (p_code mp) [], false)).

(** The loops, object.py:349-382. *)
Fixpoint a_loop (f : ast -> prop -> ast * res (prop * bool)) (s : ast) (l : list prop) : ast * res (list prop * Z) :=
  match l with
  | [] => (s, Ok ([], 0))
  | mp :: r =>
      match f s mp with
      | (s1, Err e) => (s1, Err e)
      | (s1, Ok (rp, acc)) =>
          match a_loop f s1 r with
          | (s2, Err e) => (s2, Err e)
          | (s2, Ok (rps, n)) => (s2, Ok (rp :: rps, (if acc then 1 else 0) + n))
          end
      end
  end.
Definition a_plain (h : asker) (esv : Z) : ast -> prop -> ast * res (prop * bool) :=
  if is_read_request esv then a_read h else if is_write_request esv then a_write h else a_skip.

(** Object.message_received with a handler, object.py:336-436. *)
Definition a_received (h : asker) (s : ast) (req : msg) : ast * res (option msg) :=
  if negb (is_request (m_ESV req)) then (s, Ok None)
  else
    let res0 := set_SEOJ (m_DEOJ req) (set_DEOJ (m_SEOJ req) (set_TID (m_TID req) new_msg)) in
    let finish (s' : ast) (res1 : msg) (accepted : Z) :=
      match response_esv (m_ESV req) (accepted =? OPC req + OPCSet req + OPCGet req) with
      | None => (s', Ok None)
      | Some e => (s', Ok (Some (set_ESV e res1)))
      end in
    if is_write_read_request (m_ESV req) then
      match a_loop (a_write h) s (m_sets req) with
      | (s1, Err e) => (s1, Err e)
      | (s1, Ok (sets, n)) =>
        match a_loop (a_read_wr h) s1 (m_gets req) with
        | (s2, Err e) => (s2, Err e)
        | (s2, Ok (gets, k)) => finish s2 (set_gets gets (set_sets sets res0)) (n + k)
        end
      end
    else
      match a_loop (a_plain h (m_ESV req)) s (m_props req) with
      | (s1, Err e) => (s1, Err e)
      | (s1, Ok (ps, n)) => finish s1 (set_props ps res0) n
      end.
(** Messages one after the other. *)
Fixpoint a_run (h : asker) (s : ast) (ms : list msg) : ast * list (res (option msg)) :=
  match ms with
  | [] => (s, [])
  | m :: r => let '(s1, a) := a_received h s m in let '(s2, l) := a_run h s1 r in (s2, a :: l)
  end.
