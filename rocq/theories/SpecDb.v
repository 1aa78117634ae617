(** The standard database, read directly off the table rows. *)
From Verif Require Import PyBase PropM ObjM DbData.

Definition entry_is (g c : Z) (e : std_entry) : bool :=
  let '(_, grp, cls, _) := e in (g =? grp) && (c =? cls).
(** The last entry of the two files for a class, if any. *)
Definition std_entry_of (g c : Z) : option std_entry :=
  find (entry_is g c) (rev (scsl_table ++ mra_table)).
Definition std_rows (g c : Z) : list row :=
  match std_entry_of g c with Some (_, _, _, rows) => rows | None => [] end.

(** The rows of the super class followed by those of the class. *)
Definition object_rows (g c : Z) : list row := std_rows 0 0 ++ std_rows g c.

(** The row that counts for a property code: the last one. *)
Definition row_for (code : Z) (rows : list row) : option row :=
  find (fun r => fst r =? code) (rev rows).

(** Meaning of the unconditional access rule texts. *)
Definition rule_attr (s : string) : Z :=
  if String.eqb s "mandatory" || String.eqb s "required" then 1
  else if String.eqb s "optional" then 2 else 0.

(** A property has the access attributes of a row. *)
Definition matches_row (p : oprop) (r : row) : Prop :=
  op_code p = fst r /\ op_get p = rule_attr (fst (fst (snd r))) /\
  op_set p = rule_attr (snd (fst (snd r))) /\ op_anno p = rule_attr (snd (snd r)).

(** Every row of the tables. *)
Definition all_rows : list row := flat_map (fun e : std_entry => snd e) (scsl_table ++ mra_table).

(** A rule text that demands or permits the access. *)
Definition marked (s : string) : Prop :=
  In s ["mandatory"; "required"; "required_c"; "required_o"; "optional"]%string.
(** ... unconditionally *)
Definition marked_plainly (s : string) : Prop :=
  In s ["mandatory"; "required"; "optional"]%string.

(** The last table entry with a code. *)
Definition manufacturer_of (c : Z) : option (Z * string) :=
  find (fun e => fst e =? c) (rev manufacturer_table).

(** The codes of the object's own properties that satisfy a predicate, each once. *)
Definition own_codes (l : list Z) (f : oprop -> bool) (o : obj) : Prop :=
  NoDup l /\ forall x, In x l <-> exists p, get_property x o = Some p /\ f p = true.
