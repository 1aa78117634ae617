(** Model of the loops that call listeners and observers when the callbacks themselves add or
    remove listeners:
      for listener in self.__listeners: listener...   /repo/uecho/controller.py:223-237
      for observer in self.observers: ...             /repo/uecho/protocol/subject.py:46-54
    A list iterator holds a position; each round delivers the element there, if there is one, and
    moves on (CPython, listobject.c).  Callbacks get the calls made so far, and answer
    with the changes they make and how they end.  Listeners and observers are numbers. *)
From Verif Require Import PyBase.

Inductive lop :=
| LAdd (l : nat)       (* Controller.add_listener, controller.py:109-115 *)
| LAddOnce (l : nat)   (* Subject.add_observer, subject.py:29-44 *)
| LRemove (l : nat).   (* Controller.remove_listener, controller.py:117-123 *)
(** list.remove: the first occurrence. *)
Fixpoint list_remove (l : nat) (ls : list nat) : option (list nat) :=
  match ls with
  | [] => None
  | x :: r => if Nat.eqb x l then Some r
              else match list_remove l r with Some r' => Some (x :: r') | None => None end
  end.
Definition lop_do (o : lop) (ls : list nat) : res (list nat) :=
  match o with
  | LAdd l => Ok (ls ++ [l])
  | LAddOnce l => Ok (if existsb (Nat.eqb l) ls then ls else ls ++ [l])
  | LRemove l => match list_remove l ls with Some r => Ok r | None => Err ValueError end
  end.
Fixpoint lops_do (ops : list lop) (ls : list nat) : list nat * res unit :=
  match ops with
  | [] => (ls, Ok tt)
  | o :: r => match lop_do o ls with
              | Ok ls' => lops_do r ls'
              | Err e => (ls, Err e)
              end
  end.
Definition callback := list nat -> nat -> list lop * res unit.
(** The loop from position [i]: the listeners, the calls made, and the result if it ends within
    [fuel] rounds. *)
Fixpoint tell_from (fuel : nat) (cb : callback) (i : nat) (ls calls : list nat)
  : list nat * list nat * option (res unit) :=
  match fuel with
  | O => (ls, calls, None)
  | S f =>
    match nth_error ls i with
    | None => (ls, calls, Some (Ok tt))
    | Some l =>
      let '(ops, r) := cb calls l in
      match lops_do ops ls with
      | (ls', Err e) => (ls', calls ++ [l], Some (Err e))
      | (ls', Ok _) =>
        match r with
        | Err e => (ls', calls ++ [l], Some (Err e))
        | Ok _ => tell_from f cb (S i) ls' (calls ++ [l])
        end
      end
    end
  end.
Definition tell_all (fuel : nat) (cb : callback) (ls : list nat) := tell_from fuel cb 0 ls [].
