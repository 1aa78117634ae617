(** Finalisers of nodes and servers (C106). *)
From Verif Require Import PyBase GcM.
Local Open Scope nat_scope.

(** A server that receives messages; a server that is gone. *)
Definition works (w : gworld) (s : nat) : Prop := gs_open (srv w s) = true /\ gs_run (srv w s) = true.
Definition closed (w : gworld) (s : nat) : Prop := gs_open (srv w s) = false /\ gs_run (srv w s) = false.
(** Nobody starts or stops [n]. *)
Definition untouched (n : nat) (e : gev) : Prop := (forall ok, e <> EStart n ok) /\ e <> EStop n.
