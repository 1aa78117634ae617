(** ECHONET Lite property maps (specification appendix 1), stated without the code's loops. *)
From Verif Require Import PyBase PropM.

(** A map of up to 15 codes: the number of codes followed by the codes. *)
Definition std_map1 (codes data : list Z) : Prop :=
  (length codes <= 15)%nat /\ data = zlen codes :: codes.

(** A map of 16 or more codes: the number of codes followed by 16 bytes; bit j of byte i
    stands for the code 0x80 + 0x10 * j + i. *)
Definition std_map2 (codes data : list Z) : Prop :=
  exists bm, data = zlen codes :: bm /\ length bm = 16%nat /\ bytes_ok bm /\
    (16 <= length codes)%nat /\ NoDup codes /\
    (forall c, In c codes -> 0x80 <= c < 0x100) /\
    (forall i j, (i < 16)%nat -> (j < 8)%nat ->
       (Z.testbit (nth i bm 0) (Z.of_nat j) = true <->
        In (0x80 + 0x10 * Z.of_nat j + Z.of_nat i) codes)).

(** The data has the shape of a map of some number of codes. *)
Definition map_shape (data : list Z) : Prop :=
  exists cnt rest, data = cnt :: rest /\
    ((cnt <= 15 /\ zlen rest = cnt) \/ (16 <= cnt /\ length rest = 16%nat)).

(** The same set of codes, each once. *)
Definition same_codes (l l' : list Z) : Prop := NoDup l /\ forall x, In x l <-> In x l'.

(** The property last added under a code (most recent last). *)
Fixpoint last_added (code : Z) (ps : list oprop) : option oprop :=
  match ps with
  | [] => None
  | p :: r => match last_added code r with
              | Some q => Some q
              | None => if op_code p =? code then Some p else None
              end
  end.
(** The codes whose last added property satisfies a predicate. *)
Definition describes (l : list Z) (f : oprop -> bool) (ps : list oprop) : Prop :=
  NoDup l /\ forall x, In x l <-> exists q, last_added x ps = Some q /\ f q = true.

(** The map properties and what they describe (super_object.py:78-97). *)
Definition map_kinds : list (Z * (oprop -> bool)) :=
  [(0x9D, is_announce_required); (0x9E, is_write_enabled); (0x9F, is_read_enabled)].

Definition adds_ok (ps : list oprop) : Prop :=
  (forall p, In p ps -> 0x80 <= op_code p < 0x100) /\
  (forall c, In c [0x9D; 0x9E; 0x9F] -> exists p, In p ps /\ op_code p = c).
