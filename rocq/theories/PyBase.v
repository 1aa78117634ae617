(** Python base layer: exceptions as values, byte strings, indexing, slicing, dictionaries.
    This file models the Python runtime facts the code in /repo/uecho relies on;
    it models no particular file of /repo. *)
From Coq Require Export String Ascii.
From Coq Require Export List ZArith Lia Bool.
Export ListNotations.
Open Scope Z_scope.

(** The exceptions that code of /repo/uecho can raise on the modelled paths.
    [ParserError] is Message.ParserError (uecho/protocol/message.py:35). *)
Inductive exn :=
| ParserError | IndexError | ValueError | AttributeError | OSError.

Inductive res (A : Type) : Type :=
| Ok (a : A)
| Err (e : exn).
Arguments Ok {A} a.
Arguments Err {A} e.

Definition bindr {A B} (x : res A) (f : A -> res B) : res B :=
  match x with Ok a => f a | Err e => Err e end.

Notation "x <- e ;; k" := (bindr e (fun x => k))
  (at level 61, e at next level, right associativity).

(** Elements of a Python [bytes] / [bytearray] value. *)
Definition byte_ok (b : Z) : Prop := 0 <= b < 256.
Definition bytes_ok (l : list Z) : Prop := Forall byte_ok l.
Definition byte_okb (b : Z) : bool := (0 <=? b) && (b <? 256).

(** len(l) as a Python int. *)
Definition zlen {A} (l : list A) : Z := Z.of_nat (length l).

(** b[i] for a non-negative index; IndexError past the end. *)
Definition py_index (b : list Z) (i : nat) : res Z :=
  match nth_error b i with Some x => Ok x | None => Err IndexError end.

(** b[i:j] for non-negative i, j (Python clamps, as firstn/skipn do). *)
Definition py_slice (b : list Z) (i j : nat) : list Z := firstn (j - i) (skipn i b).

(** l[i] = v for an index in range (out of range never occurs where this is used). *)
Fixpoint upd {A} (l : list A) (i : nat) (v : A) : list A :=
  match l, i with
  | [], _ => []
  | _ :: r, O => v :: r
  | x :: r, S i' => x :: upd r i' v
  end.

(** bytearray.append(x) / bytes([x]): ValueError unless 0 <= x <= 255. *)
Definition ba_append (l : list Z) (x : Z) : res (list Z) :=
  if byte_okb x then Ok (l ++ [x]) else Err ValueError.

(** Python dict: insertion-ordered; assignment to an existing key keeps its position. *)
Section Dict.
  Context {K V : Type} (eqb : K -> K -> bool).
  Fixpoint dget (k : K) (d : list (K * V)) : option V :=
    match d with
    | [] => None
    | (k', v) :: r => if eqb k k' then Some v else dget k r
    end.
  Fixpoint dset (k : K) (v : V) (d : list (K * V)) : list (K * V) :=
    match d with
    | [] => [(k, v)]
    | (k', v') :: r => if eqb k k' then (k', v) :: r else (k', v') :: dset k v r
    end.
  Definition dkeys (d : list (K * V)) : list K := map fst d.
  Definition dvals (d : list (K * V)) : list V := map snd d.
  (** d.update(e) *)
  Definition dupdate (d e : list (K * V)) : list (K * V) :=
    fold_left (fun acc kv => dset (fst kv) (snd kv) acc) e d.
End Dict.

Notation zget := (dget Z.eqb).
Notation zset := (dset Z.eqb).
Notation sget := (dget String.eqb).
Notation sset := (dset String.eqb).

Definition isSome {A} (o : option A) : bool := match o with Some _ => true | None => false end.

(** (ip, port) *)
Definition addr := (string * Z)%type.
