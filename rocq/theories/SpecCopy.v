(** Specifications for copies of attached properties and objects (C108). *)
From Verif Require Import PyBase CopyM.
Local Open Scope nat_scope.

(** Instance [x] has attribute [s] = [y]. *)
Definition has (g : graph) (x : nat) (s : slot) (y : nat) : Prop := In (s, y) (i_refs (inst_at g x)).
(** What one gets to from [x]. *)
Inductive reaches (g : graph) (x : nat) : nat -> Prop :=
| reaches_self : reaches g x x
| reaches_next k s l : reaches g x k -> has g k s l -> reaches g x l.
(** Threads with sockets, conditions, and what the program says: these cannot be copied. *)
Definition locks (k : kind) : Prop := k = KSrv \/ k = KCond \/ k = KUser false.
Definition locked (g : graph) (x : nat) : Prop := exists k, reaches g x k /\ locks (i_kind (inst_at g k)).
(** References lead to instances. *)
Definition intact (g : graph) : Prop := forall x s y, has g x s y -> y < length g.
(** The instances of before are as they were. *)
Definition untouched (g g' : graph) : Prop := forall z, z < length g -> nth_error g' z = nth_error g z.
(** [f] takes all that [x] reaches to new instances that look the same and refer to each other in the same way; there are no
    other new instances. *)
Definition copy_of (g g' : graph) (x : nat) (f : nat -> nat) : Prop :=
  (forall k, reaches g x k -> length g <= f k < length g' /\
     inst_at g' (f k) = mkinst (i_kind (inst_at g k)) (i_val (inst_at g k)) (map (fun p => (fst p, f (snd p))) (i_refs (inst_at g k)))) /\
  (forall k l, reaches g x k -> reaches g x l -> f k = f l -> k = l) /\
  (forall z, length g <= z < length g' -> exists k, reaches g x k /\ z = f k).

(** Which attribute of which kind of instance refers to what. *)
Definition fits (k : kind) (s : slot) (i : inst) : Prop :=
  match k, s, i_kind i with
  | KProp, SOwner, KObj => True
  | KObj, SPr c, KProp => hd_error (i_val i) = Some c
  | KObj, SNode, (KNode | KCtl | KRemote) => True
  | KObj, SHandler, (KObj | KUser _) => True
  | KObj, SObserver _, KUser _ => True
  | (KNode | KCtl | KRemote), SObj c, KObj => hd_error (i_val i) = Some c
  | (KNode | KCtl), SMgr, KMgr => True
  | (KNode | KCtl), SProfile, KObj => True
  | KCtl, SCond, KCond => True
  | KCtl, SFound _, KRemote => True
  | KRemote, SCtl, KCtl => True
  | KMgr, SServer _, KSrv => True
  | KSrv, SObserver _, (KNode | KCtl) => True
  | _, _, _ => False
  end.
(** Every attribute has one value; it is of the right kind; local nodes have a manager, controllers a condition. *)
Definition proper (g : graph) : Prop :=
  intact g /\
  (forall x, NoDup (map fst (i_refs (inst_at g x)))) /\
  (forall x s y, has g x s y -> fits (i_kind (inst_at g x)) s (inst_at g y)) /\
  (forall x, i_kind (inst_at g x) = KProp \/ i_kind (inst_at g x) = KObj -> i_val (inst_at g x) <> []) /\
  (forall x, i_kind (inst_at g x) = KNode \/ i_kind (inst_at g x) = KCtl -> exists m, has g x SMgr m) /\
  (forall x, i_kind (inst_at g x) = KCtl -> exists c, has g x SCond c).

(** The properties of an object with their codes, in order. *)
Definition held (g : graph) (o : nat) : list (Z * nat) :=
  flat_map (fun p => match fst p with SPr c => [(c, snd p)] | _ => [] end) (i_refs (inst_at g o)).
(** [g'] has one more object [c], of code [code], that has the attributes [own] and, under the same codes as [t], copies [q] of its
    properties which belong to it. *)
Definition object_of (g g' : graph) (t c : nat) (code : Z) (own : list (slot * nat)) (q : nat -> nat) : Prop :=
  c = length g /\ c < length g' /\
  inst_at g' c = mkinst KObj [code] (own ++ map (fun p => (SPr (fst p), q (snd p))) (held g t)) /\
  (forall d p, has g t (SPr d) p -> c < q p < length g' /\ inst_at g' (q p) = mkinst KProp (i_val (inst_at g p)) [(SOwner, c)]) /\
  (forall d p e p', has g t (SPr d) p -> has g t (SPr e) p' -> q p = q p' -> p = p').

(** Programs with local nodes that are never started and with observers and handlers that can be copied. *)
Definition tame (c : ccmd) : Prop :=
  match c with CNewCtl | CStart _ _ | CNewUser false => False | _ => True end.
