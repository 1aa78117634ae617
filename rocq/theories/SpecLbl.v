(** What objects of the class Object and profiles are called (C118). *)
From Verif Require Import PyBase PropM ObjM DbData DbM NameData NameM SpecObj SpecDb SpecName.

(** An object of the class Object: only the application says what its properties are. *)
Definition plain_next (d : Z -> option plabel) (op : lop) (k : Z) : option plabel :=
  match op with OAdd p l => if k =? op_code p then l else d k | _ => d k end.
(** Its code; the code of another object is taken although False is returned. *)
Definition code_next (cur : Z) (op : lop) : Z :=
  match op with
  | OCode (PInt c) | OCode (PObj c) => c
  | OCode (PTup [g; c]) => 65536 * (g mod 256) + 256 * (c mod 256)
  | OCode (PTup [g; c; i]) => 65536 * (g mod 256) + 256 * (c mod 256) + i mod 256
  | _ => cur
  end.
(** A profile: a new class code describes the properties of that class, those of the super class stay. *)
Definition profile_next (d : Z -> option plabel) (op : lop) (k : Z) : option plabel :=
  match op with
  | OAdd p l => if k =? op_code p then l else d k
  | OCode a => match set_code 0 a with
               | (code, true) => match find (fun r => fst r =? k) (rev (name_rows (group_of code) (class_of code))) with Some r => Some (snd r) | None => d k end
               | _ => d k
               end
  | _ => d k
  end.
(** The name of a profile: that of the last class in the tables. *)
Definition profile_name_next (n : string) (op : lop) : string :=
  match op with
  | OCode a => match set_code 0 a with
               | (code, true) => match std_entry_of (group_of code) (class_of code) with Some (m, _, _, _) => m | None => n end
               | _ => n
               end
  | _ => n
  end.
