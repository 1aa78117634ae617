(** Several controllers and one device on a network that also repeats datagrams (C95). *)
From Verif Require Import PyBase MsgM PropM ObjM SpecWire SpecReq NodeM LocalM CtrlM SpecNode SpecLocal SpecSrv SpecCtrl SpecEnd SpecSess SpecMany.
From Verif Require Import SpecReq.
Local Open Scope nat_scope.

(** The events of C82, and copies of datagrams that are on their way. *)
Inductive event2 :=
| Once (e : event)
| ECopyRequest (j : nat)
| ECopyAnswer (j : nat).
Definition copy_nth {A} (j : nat) (l : list A) : list A := l ++ match nth_error l j with Some a => [a] | None => [] end.

Definition net_step2 {PS : PySet} (wd : os) (jd : nat) (an : addr) (x : net) (e : event2) : net * list (nat * option msg) :=
  match e with
  | Once e => net_step wd jd an x e
  | ECopyRequest j => (mknet (w_dev x) (w_dtr x) (w_clis x) (copy_nth j (w_reqs x)) (w_anss x), [])
  | ECopyAnswer j => (mknet (w_dev x) (w_dtr x) (w_clis x) (w_reqs x) (copy_nth j (w_anss x)), [])
  end.
Fixpoint net_run2 {PS : PySet} (wd : os) (jd : nat) (an : addr) (x : net) (l : list event2) : net * list (nat * option msg) :=
  match l with
  | [] => (x, [])
  | e :: r => let '(x1, o1) := net_step2 wd jd an x e in let '(x2, o2) := net_run2 wd jd an x1 r in (x2, o1 ++ o2)
  end.
(** The reference. *)
Definition ref_step2 (x : rnet) (e : event2) : rnet * list (tag * option (Z * answer)) :=
  match e with
  | Once e => ref_step x e
  | ECopyRequest j => (mkrnet (v_store x) (v_clis x) (copy_nth j (v_reqs x)) (v_anss x) (v_log x) (v_posts x), [])
  | ECopyAnswer j => (mkrnet (v_store x) (v_clis x) (v_reqs x) (copy_nth j (v_anss x)) (v_log x) (v_posts x), [])
  end.
Fixpoint ref_run2 (x : rnet) (l : list event2) : rnet * list (tag * option (Z * answer)) :=
  match l with
  | [] => (x, [])
  | e :: r => let '(x1, o1) := ref_step2 x e in let '(x2, o2) := ref_run2 x1 r in (x2, o1 ++ o2)
  end.
Definition event_ok2 (x : rnet) (e : event2) : Prop := match e with Once e => event_ok x e | _ => True end.
Fixpoint run_ok2 (x : rnet) (l : list event2) : Prop :=
  match l with [] => True | e :: r => event_ok2 x e /\ run_ok2 (fst (ref_step2 x e)) r end.

(** The same contents. *)
Definition same_store (S S' : store) : Prop :=
  forall i, match S i, S' i with Some t, Some t' => forall c, t c = t' c | None, None => True | _, _ => False end.
(** The codes a call writes. *)
Definition codes_written (k : call) : list Z :=
  match k with KRead _ => [] | KWrite ps | KPost ps | KWriteRead ps _ => map p_code ps end.
(** [lg] explains what was returned: the calls are treated in its order, each once. *)
Definition explains (St : store) (lg : list (tag * (Z * call))) (o : list (tag * option (Z * answer))) : Prop :=
  NoDup (map fst lg) /\
  forall t code a, In (t, Some (code, a)) o ->
    exists l1 k l2, lg = l1 ++ (t, (code, k)) :: l2 /\ store_reply (store_run St (map snd l1)) code k = Some a.
(** Some elements left out, the others in the same order. *)
Inductive thinned {A} : list A -> list A -> Prop :=
| thin_nil : thinned [] []
| thin_skip x l m : thinned l m -> thinned l (x :: m)
| thin_keep x l m : thinned l m -> thinned (x :: l) (x :: m).
(** Requests that write are treated once. *)
Definition writes_once (lg : list (tag * (Z * call))) : Prop :=
  forall l1 t code k l2, lg = l1 ++ (t, (code, k)) :: l2 -> codes_written k <> [] -> ~ In t (map fst (l1 ++ l2)).
