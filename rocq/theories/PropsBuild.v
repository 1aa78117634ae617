(** Property C93: building a request. *)
From Verif Require Import PyBase MsgM SpecWire SpecBuild BuildP.

(** C93: the frame of a request built with a class of messages.py. *)
Theorem C93_frame : forall k d l tid, let m := set_TID tid (fst (do_adds l (made k d))) in
  (fits k l -> to_bytes m = Ok (frame_of tid k d l)) /\ (~ fits k l -> to_bytes m = Err ValueError).
Proof. exact L_C93_frame. Qed.
Print Assumptions C93_frame.
Theorem C93_returns : forall k d l, snd (do_adds l (made k d)) = map (fun x => negb (zlen (meant (arg_of x)) =? 0)) l.
Proof. exact L_C93_returns. Qed.
Print Assumptions C93_returns.
Theorem C93_received : forall k d l tid b, 0 <= tid < 65536 -> 0 <= d < 16777216 ->
  to_bytes (set_TID tid (fst (do_adds l (made k d)))) = Ok b ->
  parse_bytes new_msg b = (match k with
    | WriteRead => mkmsg tid 0x0EF001 d 0x6E [] (to_sets l) (to_gets l) None None
    | _ => mkmsg tid 0x0EF001 d (service k) (plains l) [] [] None None end, Ok true).
Proof. exact L_C93_received. Qed.
Print Assumptions C93_received.
(** C93: finding.  A property added with the wrong method is accepted but not sent. *)
Theorem C93_dropped_refuted : forall k d l x tid, suits k x = false -> meant (arg_of x) <> [] ->
  let m := set_TID tid (fst (do_adds l (made k d))) in
  snd (do_add x m) = true /\ to_bytes (fst (do_add x m)) = to_bytes m.
Proof. exact L_C93_dropped_refuted. Qed.
Print Assumptions C93_dropped_refuted.
Example C93_ex :
  let l := [Plain (PAInt 0x80); ToSet (PATuple2 0xB0 [5]); Plain PATupleN; Plain (PATuple2 0xE0 [1; 2]); Plain PAOther] in
  do_adds l (made Read 0x029101) =
    (mkmsg 0 0x0EF001 0x029101 0x62 [mkprop 0x80 []; mkprop 0xE0 [1; 2]] [mkprop 0xB0 [5]] [] None None, [true; true; false; true; false]) /\
  fits Read l /\ frame_of 7 Read 0x029101 l = [0x10; 0x81; 0; 7; 0x0E; 0xF0; 1; 2; 0x91; 1; 0x62; 2; 0x80; 0; 0xE0; 2; 1; 2] /\
  suits Read (ToSet (PATuple2 0xB0 [5])) = false /\ suits WriteRead (Plain (PAInt 0x80)) = false /\
  frame_of 7 WriteRead 0x029101 [ToSet (PATuple2 0x80 [0x30]); ToGet (PAInt 0xB0)] =
    [0x10; 0x81; 0; 7; 0x0E; 0xF0; 1; 2; 0x91; 1; 0x6E; 1; 0x80; 1; 0x30; 1; 0xB0; 0] /\
  ~ fits Write [Plain (PAInt 256)].
Proof.
  repeat split; try (vm_compute; congruence); [repeat constructor; vm_compute; congruence|].
  intros (_ & F). apply Forall_inv in F. destruct F as (X & _). unfold byte_ok in X. cbn in X. lia.
Qed.
