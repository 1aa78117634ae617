(** Specifications for requests treated by several threads (C78). *)
From Verif Require Import PyBase EsvM MsgM PropM ObjM SpecWire SpecReq ServeM.

(** Threads about to treat the requests [reqs] on [o]. *)
Definition serving (o : obj) (reqs : list msg) : sst := mksst o (map SBegin reqs).
(** The object and the thread [i] after [k] steps of a schedule. *)
Definition obj_at (s : sst) (sched : list nat) (k : nat) : obj := v_obj (vrun s (firstn k sched)).
Definition thread_at (s : sst) (sched : list nat) (i k : nat) : option spc := nth_error (v_pcs (vrun s (firstn k sched))) i.
(** The writes a request asks for, and its reads. *)
Definition asked_writes (m : msg) : list prop :=
  if m_ESV m =? 0x6E then m_sets m
  else if (m_ESV m =? 0x60) || (m_ESV m =? 0x61) then m_props m else [].
Definition asked_reads (m : msg) : list prop :=
  if m_ESV m =? 0x6E then m_gets m else if m_ESV m =? 0x62 then m_props m else [].
(** What an answer says of the reads, and the rest of the answer. *)
Definition read_part (req ans : msg) : list prop :=
  if m_ESV req =? 0x6E then m_gets ans else if m_ESV req =? 0x62 then m_props ans else [].
Definition rest_part (req ans : msg) : msg :=
  if m_ESV req =? 0x6E then set_gets [] ans else if m_ESV req =? 0x62 then set_props [] ans else ans.

(** How often a thread has made a step. *)
Definition steps_of (i : nat) (sched : list nat) : nat := count_occ Nat.eq_dec sched i.
(** The writes made by a schedule, in their order: the first step of a thread only looks at the
    request, the next ones make one write each. *)
Definition write_made (reqs : list msg) (past : list nat) (i : nat) : list prop :=
  match nth_error reqs i, steps_of i past with
  | Some m, S c => match nth_error (asked_writes m) c with Some mp => [mp] | None => [] end
  | _, _ => []
  end.
Fixpoint writes_from (reqs : list msg) (past sched : list nat) : list prop :=
  match sched with
  | [] => []
  | i :: r => write_made reqs past i ++ writes_from reqs (past ++ [i]) r
  end.
Definition writes_made (reqs : list msg) (sched : list nat) : list prop := writes_from reqs [] sched.

(** [rs] are right answers to the reads [l] at increasing steps of thread [i], from step [b] on. *)
Inductive seen (s : sst) (sched : list nat) (i : nat) : nat -> list prop -> list prop -> Prop :=
| seen_nil b : seen s sched i b [] []
| seen_next b k mp l rs : (b <= k)%nat -> nth_error sched k = Some i -> seen s sched i (S k) l rs ->
    seen s sched i b (mp :: l) (mkprop (p_code mp) (fst (read_answer (obj_at s sched k) mp)) :: rs).

(** At most one property, and no write-and-read. *)
Definition small (m : msg) : Prop := m_ESV m <> 0x6E /\ (length (m_props m) <= 1)%nat.
(** The requests at the positions [order]. *)
Definition pick (reqs : list msg) (order : list nat) : list msg :=
  flat_map (fun i => match nth_error reqs i with Some m => [m] | None => [] end) order.
Definition before (a b : nat) (l : list nat) : Prop := exists l1 l2 l3, l = l1 ++ a :: l2 ++ b :: l3.
(** Thread [a] has its answer before thread [b] begins. *)
Definition earlier (s : sst) (sched : list nat) (a b : nat) : Prop :=
  exists k r m, thread_at s sched a k = Some (SDone r) /\ thread_at s sched b k = Some (SBegin m).
(** The run is what treating the requests one by one in the order [order] gives. *)
Definition as_if (o : obj) (reqs : list msg) (order : list nat) (s : sst) : Prop :=
  v_obj s = obj_run o (pick reqs order) /\
  map (nth_error (v_pcs s)) order = map (fun a => Some (SDone a)) (obj_outs o (pick reqs order)).
