(** Model of callbacks that call Controller.post_message (/repo/uecho/controller.py:185-205).
    Listeners, observers of objects and request handlers are called during lines 278-296 of
    message_received, in the thread of the server that received the message.  A call of post_message
    in a callback runs in that thread; the handling of the message goes on when the call has
    returned.  The steps are those of PostM.  A callback may call any number of times; an exception
    of the call is not caught by the callback.
    Since the thread of a server receives the next message after the last one has been handled, a
    thread handles one message at a time. *)
From Verif Require Import PyBase EsvM MsgM NodeM TidM PostM.

Record nst := mknst {
  n_post : pst;
  n_held : list (option msg)     (* per thread: the message whose handling a call interrupts *)
}.
Definition new_nest (n : nat) (l : list Z) : nst := mknst (new_post n l) (repeat None n).
Definition held (s : nst) (i : nat) : option msg := match nth_error (n_held s) i with Some h => h | None => None end.
Definition set_pc (s : pst) (i : nat) (p : pc) : pst :=
  mkpst (p_tid s) (p_msgs s) (p_cells s) (p_last s) (p_lock s) (p_waiters s) (put (p_pcs s) i p).

(** Events, with: the thread is inside a callback. *)
Definition nev := (bool * pev)%type.
Definition raised (e : list pev) : bool := existsb (fun x => match x with ERaise _ => true | _ => false end) e.
(** One step of thread [i]. *)
Definition nstep (s : nst) (i : nat) (a : act) : option (nst * list nev) :=
  match nth_error (p_pcs (n_post s)) i, a, held s i with
  | Some (RPre m), APost q, None =>     (* a callback calls post_message *)
      match pstep (set_pc (n_post s) i PIdle) i (APost q) with
      | Some (p, e) => Some (mknst p (put (n_held s) i (Some m)), map (pair true) e)
      | None => None
      end
  | _, _, None =>
      match pstep (n_post s) i a with
      | Some (p, e) => Some (mknst p (n_held s), map (pair false) e)
      | None => None
      end
  | _, _, Some m =>
      match pstep (n_post s) i a with
      | Some (p, e) =>
          match nth_error (p_pcs p) i with
          | Some PIdle =>               (* the call has returned, or raised *)
              Some (mknst (if raised e then p else set_pc p i (RPre m)) (put (n_held s) i None), map (pair true) e)
          | _ => Some (mknst p (n_held s), map (pair true) e)
          end
      | None => None
      end
  end.
Fixpoint nrun (s : nst) (sched : list (nat * act)) : nst * list nev :=
  match sched with
  | [] => (s, [])
  | (i, a) :: r =>
      match nstep s i a with
      | None => nrun s r
      | Some (s1, e1) => let '(s2, e2) := nrun s1 r in (s2, e1 ++ e2)
      end
  end.
