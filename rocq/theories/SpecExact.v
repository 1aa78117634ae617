(** Specifications for the exact forms of C17 and C57. *)
From Verif Require Import PyBase PropM SpecMap SpecDb.

(** The codes whose bit is set in one of the low four bits of the bytes, byte by byte. *)
Definition low_codes (bm : list Z) : list Z :=
  flat_map (fun i => map (fun j => 0x80 + 0x10 * j + Z.of_nat i) (filter (fun j => Z.testbit (nth i bm 0) j) [0; 1; 2; 3])) (seq 0 16).
(** A rule text that demands the access. *)
Definition demanded (s : string) : Prop := In s ["mandatory"; "required"]%string.
