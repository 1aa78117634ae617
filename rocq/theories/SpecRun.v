(** Specifications for a node used by several threads (C89-C91). *)
From Verif Require Import PyBase EsvM MsgM PropM ObjM SpecWire SpecObj SpecReq NodeM LocalM SpecNode SpecProf ServeM SpecServe RunM.

(** ** Requests only (C89) *)
(** Threads about to treat the requests [reqs] on a node with the objects [h] under the codes of [tab]. *)
Definition asking (h : list obj) (tab : list (Z * nat)) (prof : nat) (reqs : list msg) : rst :=
  mkrst h tab prof (map TReq reqs).
(** The request of thread [t] is addressed to object [i]. *)
Definition goes_to (tab : list (Z * nat)) (reqs : list msg) (i t : nat) : bool :=
  match nth_error reqs t with
  | Some m => match zget (m_DEOJ m) tab with Some j => Nat.eqb j i | None => false end
  | None => false
  end.
(** The table refers to existing objects. *)
Definition table_ok (h : list obj) (tab : list (Z * nat)) : Prop := forall c i, zget c tab = Some i -> (i < length h)%nat.

(** ** One thread of the user and any number of requests (C90) *)
(** The properties of the node profile that describe the node's objects. *)
Definition five : list Z := [0xD3; 0xD4; 0xD5; 0xD6; 0xD7].
(** The objects of a node and further ones that are not yet added, and the node's table. *)
Definition node_heap (ln : lnode) (devs : list obj) : list obj := map snd (ln_objs ln) ++ devs.
Definition node_table (ln : lnode) : list (Z * nat) := combine (map fst (ln_objs ln)) (seq 0 (length (ln_objs ln))).
(** Thread 0 makes the calls [calls], the other threads are about to treat the requests [reqs]; the node's own
    profile was added first. *)
Definition running (ln : lnode) (devs : list obj) (calls : list ucall) (reqs : list msg) : rst :=
  mkrst (node_heap ln devs) (node_table ln) 0 (TUser calls UNext [] :: map TReq reqs).
(** Objects are added that exist and do not have the code of the node's profile, and the user does not
    store data in the five properties. *)
Definition legal (h : list obj) (c : ucall) : Prop :=
  match c with
  | CAdd i => exists o, nth_error h i = Some o /\ o_code o <> 0x0EF001
  | CSet i code d => (i < length h)%nat /\ (i = 0%nat -> ~ In code five)
  end.
(** What the calls add. *)
Definition adds_of (h : list obj) (calls : list ucall) : list (option obj) :=
  flat_map (fun c => match c with CAdd i => [nth_error h i] | CSet _ _ _ => [] end) calls.
(** How many calls of thread 0 have begun and how many have returned. *)
Definition begun (calls : list ucall) (s : rst) : nat :=
  match nth_error (r_thr s) 0 with Some (TUser todo _ _) => length calls - length todo | _ => 0%nat end.
Definition results (s : rst) : list ures :=
  match nth_error (r_thr s) 0 with Some (TUser _ _ outs) => outs | _ => [] end.
Definition returned (s : rst) : nat := length (results s).
(** The object found under a code, and the data of a property of the node's profile. *)
Definition found (code : Z) (s : rst) : option obj :=
  match zget code (r_tab s) with Some i => nth_error (r_heap s) i | None => None end.
Definition live_data (code : Z) (s : rst) : option (list Z) :=
  match found 0x0EF001 s with Some o => get_property_data code o | None => None end.
(** What the profile of the node says when the calls [calls] are made and nothing else happens. *)
Definition planned {PS : PySet} (code : Z) (ln : lnode) (devs : list obj) (calls : list ucall) : option (list Z) :=
  profile_data code (fst (local_adds (adds_of (node_heap ln devs) calls) ln)).

(** ** Several threads of the user (C91) *)
(** Thread [u] makes the calls that stand at place [u] of [callss]; the other threads treat requests. *)
Definition together (ln : lnode) (devs : list obj) (callss : list (list ucall)) (reqs : list msg) : rst :=
  mkrst (node_heap ln devs) (node_table ln) 0 (map (fun calls => TUser calls UNext []) callss ++ map TReq reqs).
Definition results_of (u : nat) (s : rst) : list ures :=
  match nth_error (r_thr s) u with Some (TUser _ _ outs) => outs | _ => [] end.
Definition begun_of (u : nat) (callss : list (list ucall)) (s : rst) : nat :=
  match nth_error callss u, nth_error (r_thr s) u with Some calls, Some (TUser todo _ _) => length calls - length todo | _, _ => 0%nat end.
(** The data of a property of the node's profile for a node with the objects [codes]. *)
Definition says (c : Z) (codes : list Z) : list Z :=
  let l := device_codes codes in
  if (c =? 0xD3)%Z then be 3 (zlen l)
  else if (c =? 0xD5)%Z then be 1 (zlen l) ++ flat_map (be 3) l
  else if (c =? 0xD6)%Z then be 1 (zlen l) ++ flat_map (be 3) l
  else if (c =? 0xD4)%Z then be 2 (zlen codes)
  else be 1 (zlen codes) ++ class_bytes (classes l).
(** The node's profile describes a node with the objects [codes]. *)
Definition tells (codes : list Z) (s : rst) : Prop := forall code, In code five -> live_data code s = Some (says code codes).
