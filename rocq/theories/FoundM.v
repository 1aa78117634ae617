(** Model of the table of found nodes of a Controller (/repo/uecho/controller.py) used by several
    threads: the receiving threads of the servers call _add_found_node (239-251) and get_node
    (134-153, from _update_properties), the user calls nodes (97-107) and get_node.
    One step is one access to the dictionary self.__found_nodes or one round of calls of the listeners:
      line 243  node.ip not in found          a test
      line 244/246  the listeners are called
      line 248  found[node.ip] = node         a store
      line 143  for ... in found.items()      the iterator is made: it notes the size of the table
      each round of the loops of 143 and 105  the iterator compares the size with the one it noted
                                              and raises RuntimeError if it has changed, else
                                              delivers the next entry (CPython, dictobject.c).
    Entries are never removed, so positions in the table do not change.  The resolver
    (socket.gethostbyname) may answer differently at each step.  Every thread makes one call; a
    program that makes several is several threads scheduled one after the other. *)
From Verif Require Import PyBase MsgM ObjM NodeM LocalM CtrlM TidM.

Inductive fres :=
| RAdded                                (* _add_found_node has returned True *)
| RGot (r : res (option node))          (* get_node has returned, or the resolver has raised *)
| RNodes (l : list node)                (* nodes has returned *)
| RChanged.                             (* RuntimeError: dictionary changed size during iteration *)
Inductive fpc :=
| PAdd (n : node) | PTell (n : node) (known : bool) | PStore (n : node)
| PGet (a : addr_arg) | PGetNext (a : addr_arg) (used pos : nat)
| PNodes | PNodesNext (used pos : nat) (acc : list node)
| PDone (r : fres).
Record fst_ := mkfst { f_tab : list (string * node); f_pcs : list fpc; f_clock : nat }.
(** Thread [i] has called node_add of the listeners; [known]: as an update. *)
Inductive fev := FTold (i : nat) (n : node) (known : bool).

(** The comparisons of lines 144-152. *)
Definition entry_matches (rsv : nat -> string -> res string) (t : nat) (a : addr_arg) (key : string) : res bool :=
  match a with
  | GAStr s =>
      if String.eqb s key then Ok true
      else ipaddr <- rsv t s;; Ok (String.eqb ipaddr key)
  | GATup ip => Ok (String.eqb ip key)
  | GAOther => Ok false
  end.
Definition fstep (rsv : nat -> string -> res string) (s : fst_) (i : nat) : fst_ * list fev :=
  let goto p := mkfst (f_tab s) (put (f_pcs s) i p) (S (f_clock s)) in
  let size := length (f_tab s) in
  match nth_error (f_pcs s) i with
  | None => (s, [])
  | Some (PAdd n) =>
      (goto (PTell n (match sget (node_ip n) (f_tab s) with Some _ => true | None => false end)), [])
  | Some (PTell n known) => (goto (PStore n), [FTold i n known])
  | Some (PStore n) =>
      (mkfst (sset (node_ip n) n (f_tab s)) (put (f_pcs s) i (PDone RAdded)) (S (f_clock s)), [])
  | Some (PGet a) => (goto (PGetNext a size 0), [])
  | Some (PGetNext a used pos) =>
      if negb (Nat.eqb size used) then (goto (PDone RChanged), [])
      else
        match nth_error (f_tab s) pos with
        | None => (goto (PDone (RGot (Ok None))), [])
        | Some (key, n) =>
            match entry_matches rsv (f_clock s) a key with
            | Ok true => (goto (PDone (RGot (Ok (Some n)))), [])
            | Ok false => (goto (PGetNext a used (S pos)), [])
            | Err e => (goto (PDone (RGot (Err e))), [])
            end
        end
  | Some PNodes => (goto (PNodesNext size 0 []), [])
  | Some (PNodesNext used pos acc) =>
      if negb (Nat.eqb size used) then (goto (PDone RChanged), [])
      else
        match nth_error (f_tab s) pos with
        | None => (goto (PDone (RNodes acc)), [])
        | Some (_, n) => (goto (PNodesNext used (S pos) (acc ++ [n])), [])
        end
  | Some (PDone r) => (goto (PDone r), [])
  end.
(** A schedule names the thread that makes the next step. *)
Fixpoint frun (rsv : nat -> string -> res string) (s : fst_) (sched : list nat) : fst_ * list fev :=
  match sched with
  | [] => (s, [])
  | i :: r => let '(s1, e1) := fstep rsv s i in let '(s2, e2) := frun rsv s1 r in (s2, e1 ++ e2)
  end.
