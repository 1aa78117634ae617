(** Specification of the lamp of the example light (C119). *)
From Verif Require Import PyBase MsgM PropM ObjM LampM SpecMono.

(** The lamp and the last line printed show the status: all of the lamp is white and the line is ON if the status begins with
    0x30, the lamp is black and the line is OFF if it begins with 0x31. *)
Definition lamp_shows (st : option (list Z)) (lamp : list Z) : Prop :=
  exists x l, st = Some (x :: l) /\ ((x = 0x30 /\ lamp = [255; 255; 255]) \/ (x = 0x31 /\ lamp = [0; 0; 0])).
Definition line_shows (st : option (list Z)) (said : list string) : Prop :=
  exists x l before, st = Some (x :: l) /\ ((x = 0x30 /\ said = before ++ ["ON"%string]) \/ (x = 0x31 /\ said = before ++ ["OFF"%string])).
Definition status_in (ps : props) : option (list Z) := option_map op_data (zget 0x80 ps).
(** A worker in the middle of switching the light. *)
Definition busy (k : worker) : Prop := match k_place k with PIdle | PDead => False | _ => True end.
(** Two workers at the same time. *)
Definition overlap (h : hall) : Prop :=
  exists i j a b, i <> j /\ nth_error (q_work h) i = Some a /\ nth_error (q_work h) j = Some b /\ busy a /\ busy b.
Definition at_rest (h : hall) : Prop := forall k, In k (q_work h) -> ~ busy k.
(** Everything to be done asks for [v]; only servers and the program switch on or off. *)
Definition asks_for (v : Z) (k : worker) : Prop :=
  Forall (fun i => match i with IReq w => exists l, w = v :: l | ISwitch x => x = v | IClose => True end) (k_items k).
Definition sane (k : worker) : Prop := Forall (fun i => match i with ISwitch x => on_off x | _ => True end) (k_items k).
(** The lamp is what the last line says. *)
Definition as_said (said : list string) (lamp : list Z) : Prop :=
  exists before, (said = before ++ ["ON"%string] /\ lamp = [255; 255; 255]) \/ (said = before ++ ["OFF"%string] /\ lamp = [0; 0; 0]).
