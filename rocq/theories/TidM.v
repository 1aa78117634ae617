(** Model of Manager.__next_TID (/repo/uecho/frame/manager.py:35-39) run by several threads.
    One step is one access to the attribute self.__TID:
      line 36  self.__TID += 1          a read, then a write
      line 37  if 0xFFFF < self.__TID   a read
      line 38  self.__TID = 1           a write
      line 39  return self.__TID        a read
    A thread that has returned may call again.  The callers' test "msg.TID == 0" and their
    assignment touch only their own message. *)
From Verif Require Import PyBase.

Inductive tpc :=
| TIdle                (* not in the function; the next step begins a call with the read of line 36 *)
| TInc (v : Z)         (* line 36, [v] read *)
| TTest | TReset | TLoad.
Record tst := mktst { t_tid : Z; t_pcs : list tpc }.
Inductive tev := TBegin (i : nat) | TRet (i : nat) (t : Z).

Fixpoint put {A} (l : list A) (i : nat) (x : A) : list A :=
  match l, i with
  | [], _ => []
  | _ :: r, O => x :: r
  | y :: r, S i' => y :: put r i' x
  end.

Definition tstep (s : tst) (i : nat) : tst * list tev :=
  let goto t p := mktst t (put (t_pcs s) i p) in
  match nth_error (t_pcs s) i with
  | None => (s, [])
  | Some TIdle => (goto (t_tid s) (TInc (t_tid s)), [TBegin i])
  | Some (TInc v) => (goto (v + 1) TTest, [])
  | Some TTest => (goto (t_tid s) (if 0xFFFF <? t_tid s then TReset else TLoad), [])
  | Some TReset => (goto 1 TLoad, [])
  | Some TLoad => (goto (t_tid s) TIdle, [TRet i (t_tid s)])
  end.
(** A schedule names the thread that makes the next step. *)
Fixpoint trun (s : tst) (sched : list nat) : tst * list tev :=
  match sched with
  | [] => (s, [])
  | i :: r => let '(s1, e1) := tstep s i in let '(s2, e2) := trun s1 r in (s2, e1 ++ e2)
  end.
