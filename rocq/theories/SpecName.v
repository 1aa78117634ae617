(** What standard objects and their properties are called (C118). *)
From Verif Require Import PyBase PropM ObjM DbData DbM NameData NameM SpecObj SpecDb.

(** The rows about the names of the properties of a class: those of its last entry in the two files. *)
Definition name_rows (g c : Z) : list name_row :=
  match find (fun e : name_entry => (g =? fst (fst e)) && (c =? snd (fst e))) (rev (scsl_names ++ mra_names)) with Some e => snd e | None => [] end.
(** What the tables say about the property [code] of objects of the class: the last row that has the
    code, those of the super class coming first. *)
Definition described (g c code : Z) : option plabel :=
  option_map snd (find (fun r => fst r =? code) (rev (name_rows 0 0 ++ name_rows g c))).
(** The name of a class. *)
Definition class_name (g c : Z) : string := match std_entry_of g c with Some (n, _, _, _) => n | None => "Super class" end.

(** What an object says about its property [code]: its name, type and size, or AttributeError for all
    three. *)
Definition says (x : lobj) (code : Z) (d : option plabel) : Prop :=
  match d with
  | Some (n, t, z) => prop_name code x = Ok n /\ prop_typ code x = Ok t /\ prop_size code x = Ok z
  | None => prop_name code x = Err AttributeError /\ prop_typ code x = Err AttributeError /\ prop_size code x = Err AttributeError
  end.
(** What a standard object says after a step, if it said [d] before: adding a property replaces what is
    said about its code, and so does a new class code for the properties of that class. *)
Definition said_next (d : Z -> option plabel) (op : lop) (k : Z) : option plabel :=
  match op with
  | OAdd p l => if k =? op_code p then l else d k
  | OCode a => match set_code 0 a with
               | (code, true) => match described (group_of code) (class_of code) k with Some l => Some l | None => d k end
               | _ => d k
               end
  | _ => d k
  end.
Definition said (d : Z -> option plabel) (ops : list lop) : Z -> option plabel := fold_left said_next ops d.
(** No set_code raised. *)
Definition codes_set (ops : list lop) (bs : list bool) : Prop :=
  Forall2 (fun op b => match op with OCode _ => b = true | _ => True end) ops bs.
(** Values are written and requests answered; nothing else. *)
Definition values_only (op : lop) : Prop := match op with OSet _ _ | OMsg _ => True | _ => False end.
(** The name of a property in the tables. *)
Definition table_name (o : obj) (p : oprop) : string :=
  match described (group_of (o_code o)) (class_of (o_code o)) (op_code p) with Some (n, _, _) => n | None => "" end.
(** A standard object that was made with a class code and of which at most values changed since. *)
Definition standard_made {PS : PySet} (x : lobj) : Prop :=
  exists c x0 ops bs, l_new_standard (PInt c) = (x0, Ok tt) /\ Forall values_only ops /\ l_run ops x0 = (x, bs).
(** The steps without the fields of properties. *)
Definition plain_step {PS : PySet} (o : obj) (op : lop) : obj :=
  match op with
  | OSet code data => fst (set_property_data code data o)
  | OAdd p _ => fst (obj_add_property (Some p) o)
  | OCode a => fst (obj_set_code a o)
  | OMsg m => fst (fst (obj_message_received o m))
  end.
(** The name of a standard object after a step: a new class code gives it the name of the class. *)
Definition name_next (n : string) (op : lop) : string :=
  match op with OCode a => match set_code 0 a with (code, true) => class_name (group_of code) (class_of code) | _ => n end | _ => n end.
(** Entries of the two transcriptions of the tables that belong together. *)
Definition same_rows (e : std_entry) (n : name_entry) : Prop :=
  let '(_, g, c, rows) := e in g = fst (fst n) /\ c = snd (fst n) /\ map fst rows = map fst (snd n).
