(** Specifications for an application that sets data while requests are answered (C92). *)
From Verif Require Import PyBase EsvM MsgM PropM ObjM SpecWire SpecObj SpecReq ServeM SpecServe RunM SpecRun.
Local Open Scope nat_scope.

(** Each list of [sets] is what one thread of the application stores: object, property code, data.  The
    threads after these are about to treat the requests [reqs]. *)
Definition sharing (h : list obj) (tab : list (Z * nat)) (prof : nat) (sets : list (list (nat * Z * list Z))) (reqs : list msg) : rst :=
  mkrst h tab prof (map (fun l => TUser (map (fun x => CSet (fst (fst x)) (snd (fst x)) (snd x)) l) UNext []) sets ++ map TReq reqs).
(** The objects have built-in handlers and keep their properties under their codes; the application stores
    in existing objects. *)
Definition ready (h : list obj) (tab : list (Z * nat)) (sets : list (list (nat * Z * list Z))) : Prop :=
  (forall i o, nth_error h i = Some o -> builtin (o_handler o) /\ wf_obj o) /\ table_ok h tab /\
  forall l i c d, In l sets -> In (i, c, d) l -> i < length h.

(** What happens to an object: the application stores, or a request asks for a write. *)
Inductive deed := Stored (c : Z) (d : list Z) | Asked (mp : prop).
Section Deeds.
Context (tab : list (Z * nat)) (sets : list (list (nat * Z * list Z))) (reqs : list msg) (i : nat).
(** What thread [t] does to object [i] when it makes its next step after the steps [past]: a thread of the
    application makes a store with each step; the first step of a request only looks the object
    up, the next ones make one write each. *)
Definition deed_of (past : list nat) (t : nat) : list deed :=
  match nth_error sets t with
  | Some l =>
      match nth_error l (steps_of t past) with
      | Some (j, c, d) => if Nat.eqb j i then [Stored c d] else []
      | None => []
      end
  | None =>
      match nth_error reqs (t - length sets), steps_of t past with
      | Some m, S k => if goes_to tab reqs i (t - length sets) then
                         match nth_error (asked_writes m) k with Some mp => [Asked mp] | None => [] end
                       else []
      | _, _ => []
      end
  end.
Fixpoint deeds_from (past sched : list nat) : list deed :=
  match sched with
  | [] => []
  | t :: r => deed_of past t ++ deeds_from (past ++ [t]) r
  end.
Definition deeds (sched : list nat) : list deed := deeds_from [] sched.
End Deeds.
(** The data of property [p] of an object with handler [h] after these deeds: those of the last store. *)
Definition now (h : handler) (p : oprop) (ds : list deed) : list Z :=
  fold_left (fun d x => match x with
                        | Stored c d' => if (c =? op_code p)%Z then d' else d
                        | Asked mp => if (p_code mp =? op_code p)%Z && may_write h p then p_data mp else d
                        end) ds (op_data p).
(** [o'] is [o] with the data that these deeds give; nothing else differs. *)
Definition holds (o : obj) (ds : list deed) (o' : obj) : Prop :=
  o' = set_o_props (o_props o') o /\ dkeys (o_props o') = dkeys (o_props o) /\
  forall c, get_property c o' =
    match get_property c o with
    | None => None
    | Some p => Some (mkoprop (op_code p) (now (o_handler o) p ds) (op_get p) (op_set p) (op_anno p))
    end.

(** The steps made before each step of thread [t]. *)
Fixpoint ticks_from (t : nat) (past sched : list nat) : list (list nat) :=
  match sched with
  | [] => []
  | j :: r => (if Nat.eqb j t then [past] else []) ++ ticks_from t (past ++ [j]) r
  end.
Definition ticks (t : nat) (sched : list nat) : list (list nat) := ticks_from t [] sched.
(** What reading a property of [o] gives after these deeds. *)
Definition read_now (o : obj) (c : Z) (ds : list deed) : list Z :=
  match get_property c o with
  | Some p => if can_read p then now (o_handler o) p ds else []
  | None => []
  end.
(** The answers to the reads [l], each at its own moment. *)
Definition reads_at (o : obj) (history : list nat -> list deed) (l : list prop) (moments : list (list nat)) : list prop :=
  map (fun x => mkprop (p_code (fst x)) (read_now o (p_code (fst x)) (history (snd x)))) (combine l moments).
(** The number of the step that makes the first read of a request. *)
Definition first_read (m : msg) : nat := if (m_ESV m =? 0x6E)%Z then 2 + length (m_sets m) else 1.
