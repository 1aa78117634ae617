(** Specifications for C101: property data as values. *)
From Verif Require Import PyBase BufM.
Local Open Scope nat_scope.

(** What a program means if every variable and every property has its own bytes: storing and getting copy
    them, and an edit changes the edited variable only.  The flag tells whether Python lets the
    variable be edited. *)
Record vst := mkvst { v_vars : list (bool * list Z); v_cells : list (bool * list Z); v_msgs : list (list nat) }.
Definition upd {A} (l : list A) (i : nat) (x : A) : list A :=
  map (fun p => if Nat.eqb (fst p) i then x else snd p) (combine (seq 0 (length l)) l).
Definition vstep (s : vst) (o : bop) : vst * list bob :=
  let with_vars l := mkvst l (v_cells s) (v_msgs s) in
  let with_cells l := mkvst (v_vars s) l (v_msgs s) in
  match o with
  | BNew mu d => (with_vars (v_vars s ++ [(mu, d)]), [])
  | BArrive d => (with_vars (v_vars s ++ [(true, d)]), [])
  | BEdit v f =>
      match nth_error (v_vars s) v with
      | None => (s, [])
      | Some (true, d) => (with_vars (upd (v_vars s) v (true, f d)), [])
      | Some (false, _) => (s, [ORefused])
      end
  | BLook v => (s, match nth_error (v_vars s) v with None => [] | Some x => [OBytes (snd x)] end)
  | BSet c v => (match nth_error (v_vars s) v with None => s | Some x => with_cells (upd (v_cells s) c x) end, [])
  | BGet c => (match nth_error (v_cells s) c with None => s | Some x => with_vars (v_vars s ++ [x]) end, [])
  | BRecord c v =>
      match nth_error (v_cells s) c, nth_error (v_vars s) v with
      | Some x, Some y => if list_eq_dec Z.eq_dec (snd x) (snd y) then (s, [OTold false]) else (with_cells (upd (v_cells s) c y), [OTold true])
      | _, _ => (s, [])
      end
  | BRead c => (s, match nth_error (v_cells s) c with None => [] | Some x => [OBytes (snd x)] end)
  | BCopy c => (match nth_error (v_cells s) c with None => s | Some x => with_cells (v_cells s ++ [x]) end, [])
  | BProp v => (match nth_error (v_vars s) v with None => s | Some x => with_cells (v_cells s ++ [x]) end, [])
  | BMsg => (mkvst (v_vars s) (v_cells s) (v_msgs s ++ [[]]), [])
  | BAdd m c =>
      (match nth_error (v_msgs s) m, nth_error (v_cells s) c with
       | Some l, Some _ => mkvst (v_vars s) (v_cells s) (upd (v_msgs s) m (l ++ [c]))
       | _, _ => s
       end, [])
  | BSend m =>
      (s, match nth_error (v_msgs s) m with
          | None => []
          | Some l => [OFrame (map (fun c => snd (nth c (v_cells s) (false, []))) l)]
          end)
  end.
Fixpoint vrun (s : vst) (l : list bop) : vst * list bob :=
  match l with
  | [] => (s, [])
  | o :: r => let '(s1, e1) := vstep s o in let '(s2, e2) := vrun s1 r in (s2, e1 ++ e2)
  end.

(** The values of a state. *)
Definition as_values (s : bst) : vst :=
  mkvst (map (fun r => nth r (b_heap s) (false, [])) (b_vars s))
        (map (fun r => nth r (b_heap s) (false, [])) (b_cells s)) (b_msgs s).
(** References refer to something. *)
Definition buf_ok (s : bst) : Prop :=
  Forall (fun r => r < length (b_heap s)) (b_vars s) /\ Forall (fun r => r < length (b_heap s)) (b_cells s) /\
  Forall (Forall (fun c => c < length (b_cells s))) (b_msgs s).
(** No property and no other variable refers to the array of variable [v]. *)
Definition alone (s : bst) (v : nat) : Prop :=
  forall r, nth_error (b_vars s) v = Some r ->
  ~ In r (b_cells s) /\ forall w, nth_error (b_vars s) w = Some r -> w = v.
(** The program edits only arrays that nothing else refers to (or cannot edit them). *)
Fixpoint edits_alone (s : bst) (l : list bop) : Prop :=
  match l with
  | [] => True
  | o :: r =>
      match o with
      | BEdit v _ => alone s v \/ exists k d, nth_error (b_vars s) v = Some k /\ nth_error (b_heap s) k = Some (false, d)
      | _ => True
      end /\ edits_alone (fst (bstep s o)) r
  end.
Definition no_edits (l : list bop) : Prop := forall v f, ~ In (BEdit v f) l.
