(** Which property an object has under a code, and what its present code decides. *)
From Verif Require Import PyBase BytesM EsvM MsgM PropM ObjM DbData DbM HeapM KeyM.
Local Open Scope nat_scope.

(** A heap as Python keeps it: dictionaries have each key once and refer to existing properties. *)
Definition sound_heap (h : heap) : Prop :=
  forall i, NoDup (map fst (ho_dict (hobj_at h i))) /\
            forall k l, In (k, l) (ho_dict (hobj_at h i)) -> l < length (h_props h).

(** A register: the present codes of all properties, and every addition so far, the last one first, with
    the code that the property had then. *)
Record register : Type := mkreg { rg_codes : list Z; rg_added : list (nat * Z * nat) }.
Fixpoint replace {A} (l : list A) (n : nat) (x : A) : list A :=
  match l, n with
  | [], _ => []
  | _ :: r, O => x :: r
  | y :: r, S n => y :: replace r n x
  end.
(** The number of objects: commands on objects that do not exist do nothing. *)
Definition reg_step (s : register * nat) (c : kcmd) : register * nat :=
  let '(r, n) := s in
  match c with
  | KObject _ | KSuper _ => (r, S n)
  | KProp code _ => (mkreg (rg_codes r ++ [code]) (rg_added r), n)
  | KCode l code => (mkreg (replace (rg_codes r) l code) (rg_added r), n)
  | KAdd i l =>
      match nth_error (rg_codes r) l with
      | Some code => if i <? n then (mkreg (rg_codes r) ((i, code, l) :: rg_added r), n) else (r, n)
      | None => (r, n)
      end
  | _ => (r, n)
  end.
Definition registered (h : heap) (prog : list kcmd) : register :=
  fst (fold_left reg_step prog (mkreg (map (fun p => op_code (fst p)) (h_props h)) [], length (h_objs h))).
Definition last_added (r : register) (i : nat) (code : Z) : option nat :=
  match find (fun e => (fst (fst e) =? i) && (snd (fst e) =? code)%Z) (rg_added r) with
  | Some e => Some (snd e)
  | None => None
  end.

(** Access rights as attributes: required or optional. *)
Definition allowed (attr : Z) : bool := ((attr =? 1) || (attr =? 2))%Z.
(** The property asked for, and the one that decides: the one found under the present code of the former. *)
Definition judge (h : heap) (i : nat) (code : Z) : option nat :=
  match h_get code i h with Some l => h_get (op_code (hval h l)) i h | None => None end.
Definition readable (h : heap) (i : nat) (code : Z) : bool :=
  match judge h i code with Some q => allowed (op_get (hval h q)) | None => false end.
Definition writable (h : heap) (i : nat) (code : Z) : bool :=
  match judge h i code with Some q => allowed (op_set (hval h q)) | None => false end.
(** What a request gets for each property. *)
Definition read_item (h : heap) (i : nat) (p : prop) : prop :=
  mkprop (p_code p) (match h_get (p_code p) i h with
                     | Some l => if readable h i (p_code p) then op_data (hval h l) else []
                     | None => []
                     end).
Definition write_item (h : heap) (i : nat) (p : prop) : prop :=
  mkprop (p_code p) (match h_get (p_code p) i h with
                     | Some _ => if writable h i (p_code p) then [] else p_data p
                     | None => []
                     end).
(** The data of property [x] after the writes [ps]. *)
Definition data_after (h : heap) (i x : nat) (ps : list prop) : list Z :=
  fold_left (fun d p => match h_get (p_code p) i h with
                        | Some l => if (l =? x) && writable h i (p_code p) then p_data p else d
                        | None => d
                        end) ps (op_data (hval h x)).
(** Heaps with the same objects and properties except for the data of the properties. *)
Definition same_but_data (h h' : heap) : Prop :=
  h_objs h' = h_objs h /\ length (h_props h') = length (h_props h) /\
  forall x, op_code (hval h' x) = op_code (hval h x) /\ op_get (hval h' x) = op_get (hval h x) /\
            op_set (hval h' x) = op_set (hval h x) /\ op_anno (hval h' x) = op_anno (hval h x).

(** The codes that the properties of an object have now, of those with a right. *)
Definition listed (h : heap) (i : nat) (right : oprop -> bool) (c : Z) : Prop :=
  exists k l, h_get k i h = Some l /\ op_code (hval h l) = c /\ right (hval h l) = true.
Definition may_get (p : oprop) : bool := allowed (op_get p).
Definition may_set (p : oprop) : bool := allowed (op_set p).
Definition must_tell (p : oprop) : bool := (op_anno p =? 1)%Z.
(** The list of a property map of up to 15 codes: the number of codes, then the codes, each once. *)
Definition describes (d : list Z) (P : Z -> Prop) : Prop :=
  exists cs, d = (zlen cs :: cs)%list /\ NoDup cs /\ forall c, In c cs <-> P c.
Definition few (P : Z -> Prop) : Prop := exists cs, length cs <= 15 /\ (forall c, P c -> In c cs /\ (0 <= c < 256)%Z).

(** No property is given another code once it has been added to an object. *)
Fixpoint settled (r : register * nat) (prog : list kcmd) : Prop :=
  match prog with
  | [] => True
  | c :: rest =>
      match c with KCode l _ => forall i k, ~ In (i, k, l) (rg_added (fst r)) | _ => True end /\ settled (reg_step r c) rest
  end.
(** Every property is kept under the code it has. *)
Definition keyed (h : heap) : Prop := forall i k l, h_get k i h = Some l -> op_code (hval h l) = k.
(** The last of the properties with a code. *)
Definition last_with (c : Z) (l : list oprop) : option oprop := find (fun p => (op_code p =? c)%Z) (rev l).
