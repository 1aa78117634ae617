(** Model of Controller.post_message (/repo/uecho/controller.py:185-205) and of the part of
    Controller.message_received that hands responses over (lines 298-303), run by any number of
    threads.  One step is one access to shared data or one operation on the condition variable.
    Condition is that of threading: a lock and a queue of waiters; notify() takes the first
    waiter out of the queue and wakes it; a waiter whose timeout expired takes the lock again
    and then leaves the queue.
    Simplified: one step assigns the TID (the steps of __next_TID are in TidM.v); sending is one
    step whose outcome is chosen by the schedule; lines 278-296 of message_received are one step
    that either raises or goes on. *)
From Verif Require Import PyBase EsvM MsgM NodeM TidM.

(** The program counter of a thread, with its local variables.  [q]: a Message object, by its
    index; [p]: a __PostMessage object, by its index; [m]: a received message. *)
Inductive pc :=
| PIdle
(* post_message; line 195 is the step that begins the call *)
| PReq (q : nat)              (* 196: read self.__last_post_msg *)
| PReqAt (q p : nat)          (* 196: write p.request *)
| PTid (q : nat)              (* 198: send_message, manager.py:72-73 *)
| PSend (q : nat)             (* 198: send_message, manager.py:74-79 *)
| PNone (q : nat)             (* 199 *)
| PAcq (q : nat)              (* 201 *)
| PWait (q : nat)             (* 202: enter the queue and release the lock *)
| PSleep (q : nat)            (* 202: asleep *)
| PWake (q : nat) (got : bool) (* 202: take the lock again; [got]: notified *)
| PRel (q : nat)              (* 203 *)
| PLast (q : nat)             (* 205: read self.__last_post_msg *)
| PRet (q p : nat)            (* 205: read p.response *)
(* message_received *)
| RPre (m : msg)              (* 278-296 *)
| RLast1 (m : msg)            (* 298: read self.__last_post_msg *)
| RReq1 (m : msg) (p : nat)   (* 73: read p.request *)
| RResp1 (m : msg) (p : nat)  (* 75: read p.response *)
| RLast2 (m : msg)            (* 299: read self.__last_post_msg *)
| RReq2 (m : msg) (p : nat)   (* 299: read p.request *)
| RTid (m : msg) (q : nat)    (* 299: is_response_message reads q.TID *)
| RLast3 (m : msg)            (* 300: read self.__last_post_msg *)
| RStore (m : msg) (p : nat)  (* 300: write p.response *)
| RAcq (m : msg)              (* 301 *)
| RNotify (m : msg)           (* 302 *)
| RRel (m : msg).             (* 303 *)

(** A __PostMessage object, controller.py:63-77. *)
Record cell := mkcell { k_req : option nat; k_resp : option msg }.
Record pst := mkpst {
  p_tid : Z;                 (* Manager.__TID *)
  p_msgs : list Z;           (* the TIDs of the Message objects given to post_message *)
  p_cells : list cell;       (* the __PostMessage objects *)
  p_last : nat;              (* self.__last_post_msg *)
  p_lock : option nat;       (* the lock of self.__last_post_cond *)
  p_waiters : list nat;      (* its queue *)
  p_pcs : list pc            (* the threads *)
}.
(** Controller(), controller.py:88-89, with [n] threads and Message objects with the TIDs [l]. *)
Definition new_post (n : nat) (l : list Z) : pst := mkpst 0 l [mkcell None None] 0 None [] (repeat PIdle n).

Inductive act :=
| AStep               (* the next step; for a sleeping thread: its timeout expires *)
| APost (q : nat)     (* call post_message with message object q *)
| ARecv (m : msg)     (* message_received(m) is called *)
| ASend (ok : bool)   (* sending succeeds or not *)
| ARaise.             (* sending, or lines 278-296, raise *)
Inductive pev :=
| EBegin (i q : nat)                    (* post_message called *)
| ETid (i q : nat) (t : Z)              (* the TID of the request when it is sent *)
| ESent (i q : nat) (t : Z)
| EUnsent (i q : nat)
| ETimeout (i q : nat)
| EReturn (i q : nat) (r : option msg)  (* post_message returns *)
| EArrive (i : nat) (m : msg)           (* message_received called *)
| ERaise (i : nat).                     (* an exception *)

Definition tid_of (s : pst) (q : nat) : Z := nth q (p_msgs s) 0.
Definition cell_of (s : pst) (p : nat) : cell := nth p (p_cells s) (mkcell None None).
Fixpoint drop_waiter (i : nat) (l : list nat) : list nat :=
  match l with
  | [] => []
  | x :: r => if Nat.eqb x i then r else x :: drop_waiter i r
  end.
(** The thread that notify() wakes. *)
Definition wake (w : nat) (l : list pc) : list pc :=
  match nth_error l w with
  | Some (PSleep q) => put l w (PWake q true)
  | _ => l
  end.

(** One step of thread [i]; None: not possible now. *)
Definition pstep (s : pst) (i : nat) (a : act) : option (pst * list pev) :=
  let goto p := mkpst (p_tid s) (p_msgs s) (p_cells s) (p_last s) (p_lock s) (p_waiters s) (put (p_pcs s) i p) in
  let locked l p := mkpst (p_tid s) (p_msgs s) (p_cells s) (p_last s) l (p_waiters s) (put (p_pcs s) i p) in
  let store p c x := mkpst (p_tid s) (p_msgs s) (put (p_cells s) p c) (p_last s) (p_lock s) (p_waiters s) (put (p_pcs s) i x) in
  match nth_error (p_pcs s) i, a with
  | Some PIdle, APost q =>
      if Nat.ltb q (length (p_msgs s)) then
        Some (mkpst (p_tid s) (p_msgs s) (p_cells s ++ [mkcell None None]) (length (p_cells s))
                (p_lock s) (p_waiters s) (put (p_pcs s) i (PReq q)), [EBegin i q])
      else None
  | Some (PReq q), AStep => Some (goto (PReqAt q (p_last s)), [])
  | Some (PReqAt q p), AStep => Some (store p (mkcell (Some q) (k_resp (cell_of s p))) (PTid q), [])
  | Some (PTid q), AStep =>
      if tid_of s q =? 0 then
        let '(g, t) := next_TID (mkmgr (p_tid s) []) in
        Some (mkpst (g_tid g) (put (p_msgs s) q t) (p_cells s) (p_last s) (p_lock s) (p_waiters s)
                (put (p_pcs s) i (PSend q)), [ETid i q t])
      else Some (goto (PSend q), [ETid i q (tid_of s q)])
  | Some (PSend q), ASend true => Some (goto (PAcq q), [ESent i q (tid_of s q)])
  | Some (PSend q), ASend false => Some (goto (PNone q), [EUnsent i q])
  | Some (PSend q), ARaise => Some (goto PIdle, [ERaise i])
  | Some (PNone q), AStep => Some (goto PIdle, [EReturn i q None])
  | Some (PAcq q), AStep =>
      match p_lock s with None => Some (locked (Some i) (PWait q), []) | Some _ => None end
  | Some (PWait q), AStep =>
      Some (mkpst (p_tid s) (p_msgs s) (p_cells s) (p_last s) None (p_waiters s ++ [i])
              (put (p_pcs s) i (PSleep q)), [])
  | Some (PSleep q), AStep => Some (goto (PWake q false), [ETimeout i q])
  | Some (PWake q got), AStep =>
      match p_lock s with
      | None => Some (mkpst (p_tid s) (p_msgs s) (p_cells s) (p_last s) (Some i)
                        (if got then p_waiters s else drop_waiter i (p_waiters s))
                        (put (p_pcs s) i (PRel q)), [])
      | Some _ => None
      end
  | Some (PRel q), AStep => Some (locked None (PLast q), [])
  | Some (PLast q), AStep => Some (goto (PRet q (p_last s)), [])
  | Some (PRet q p), AStep => Some (goto PIdle, [EReturn i q (k_resp (cell_of s p))])
  | Some PIdle, ARecv m => Some (goto (RPre m), [EArrive i m])
  | Some (RPre m), AStep => Some (goto (if is_response (m_ESV m) then RLast1 m else PIdle), [])
  | Some (RPre m), ARaise => Some (goto PIdle, [ERaise i])
  | Some (RLast1 m), AStep => Some (goto (RReq1 m (p_last s)), [])
  | Some (RReq1 m p), AStep =>
      Some (goto (match k_req (cell_of s p) with None => PIdle | Some _ => RResp1 m p end), [])
  | Some (RResp1 m p), AStep =>
      Some (goto (match k_resp (cell_of s p) with Some _ => PIdle | None => RLast2 m end), [])
  | Some (RLast2 m), AStep => Some (goto (RReq2 m (p_last s)), [])
  | Some (RReq2 m p), AStep =>
      match k_req (cell_of s p) with
      | None => Some (goto PIdle, [ERaise i])   (* None has no is_response_message *)
      | Some q => Some (goto (RTid m q), [])
      end
  | Some (RTid m q), AStep => Some (goto (if tid_of s q =? m_TID m then RLast3 m else PIdle), [])
  | Some (RLast3 m), AStep => Some (goto (RStore m (p_last s)), [])
  | Some (RStore m p), AStep => Some (store p (mkcell (k_req (cell_of s p)) (Some m)) (RAcq m), [])
  | Some (RAcq m), AStep =>
      match p_lock s with None => Some (locked (Some i) (RNotify m), []) | Some _ => None end
  | Some (RNotify m), AStep =>
      match p_waiters s with
      | [] => Some (goto (RRel m), [])
      | w :: r => Some (mkpst (p_tid s) (p_msgs s) (p_cells s) (p_last s) (p_lock s) r
                          (put (wake w (p_pcs s)) i (RRel m)), [])
      end
  | Some (RRel m), AStep => Some (locked None PIdle, [])
  | _, _ => None
  end.
(** A schedule: which thread does what next; impossible entries are skipped. *)
Fixpoint prun (s : pst) (sched : list (nat * act)) : pst * list pev :=
  match sched with
  | [] => (s, [])
  | (i, a) :: r =>
      match pstep s i a with
      | None => prun s r
      | Some (s1, e1) => let '(s2, e2) := prun s1 r in (s2, e1 ++ e2)
      end
  end.
