(** Vocabulary for the property about starting and stopping a node (C99).  Nothing here computes with the
    functions of StartM. *)
From Verif Require Import PyBase StartM.
Local Open Scope nat_scope.

(** What the kernel took for a server, what the node handled of it, and what no observer saw, in order. *)
Definition got (v : nat) (e : list ev) : list nat :=
  flat_map (fun x => match x with EGot w d => if Nat.eqb w v then [d] else [] | _ => [] end) e.
Definition told (v : nat) (e : list ev) : list nat :=
  flat_map (fun x => match x with ETold w d => if Nat.eqb w v then [d] else [] | _ => [] end) e.
Definition lost (v : nat) (e : list ev) : list nat :=
  flat_map (fun x => match x with ELost w d => if Nat.eqb w v then [d] else [] | _ => [] end) e.
(** What a server has read or not yet read, and not handed on. *)
Definition waiting (x : srv) : list nat := (match v_pc x with RTell d => [d] | _ => [] end) ++ v_queue x.
Definition waiting_at (s : sst) (v : nat) : list nat :=
  match nth_error (z_srv s) v with Some x => waiting x | None => [] end.

(** The last call or return in a trace. *)
Definition is_call (x : ev) : bool :=
  match x with ECall _ _ | EBack _ _ _ | ERaise _ => true | _ => false end.
Definition last_call (e : list ev) : option ev :=
  match rev (filter is_call e) with x :: _ => Some x | [] => None end.

(** One unicast and one multicast server for each of [n] interfaces. *)
Definition all_servers (n : nat) : list (nat * bool) := flat_map (fun i => [(i, true); (i, false)]) (seq 0 n).
Definition kind (x : srv) : nat * bool := (v_if x, v_uni x).
Definition running (x : srv) : Prop := v_open x = true /\ v_pc x <> RNew /\ v_pc x <> REnd.
Definition ended (x : srv) : Prop := v_open x = false /\ v_pc x = REnd.

Definition no_fail (l : list turn) : Prop := forall u, ~ In (TFail u) l.
(** Steps of thread [u] and of receiving threads only. *)
Definition only_thread (u : nat) (l : list turn) : Prop :=
  forall t, In t l -> t = TGo u \/ exists v, t = TRecv v.
