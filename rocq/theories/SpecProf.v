(** What the node profile of a node must say (ECHONET Lite Specification Part II, 6.11). *)
From Verif Require Import PyBase MsgM PropM ObjM DbM SpecWire SpecObj NodeM LocalM SpecNode.

Definition is_profile_code (c : Z) : bool := (c =? 0x0EF001) || (c =? 0x0EF002).
(** The codes that are not those of node profiles. *)
Definition device_codes (l : list Z) : list Z := filter (fun c => negb (is_profile_code c)) l.
(** The distinct classes of a list of codes, in order of first occurrence. *)
Definition pair_eqb (a b : Z * Z) : bool := (fst a =? fst b) && (snd a =? snd b).
Definition class_pair (c : Z) : Z * Z := (group_of c, class_of c).
Definition classes (l : list Z) : list (Z * Z) := firsts pair_eqb (map class_pair l).
Definition class_bytes (l : list (Z * Z)) : list Z := flat_map (fun gc => [fst gc; snd gc]) l.

(** Adding objects to a node one after the other, and what the calls returned. *)
Fixpoint local_adds {PS : PySet} (ops : list (option obj)) (s : lnode) : lnode * list (res bool) :=
  match ops with
  | [] => (s, [])
  | o :: r => let '(s1, x) := local_add_object o s in
              let '(s2, l) := local_adds r s1 in (s2, x :: l)
  end.
(** No object with the code of the node's own profile is added. *)
Definition no_profile (ops : list (option obj)) : Prop := forall o, In (Some o) ops -> o_code o <> 0x0EF001.
(** The codes of the node's objects. *)
Definition node_codes (s : lnode) : list Z := map o_code (node_objects (ln_node s)).
(** The data of a property of the node's profile. *)
Definition profile_data (code : Z) (s : lnode) : option (list Z) :=
  match get_object (PInt 0x0EF001) (ln_node s) with
  | Some p => get_property_data code p
  | None => None
  end.
