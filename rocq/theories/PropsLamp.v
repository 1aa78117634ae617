(** Property C119: the lamp of the example light. *)
From Verif Require Import PyBase BytesM EsvM MsgM PropM ObjM DbM MonoM AskM LampM SpecReq SpecAsk SpecMono SpecLamp LampP.

(** C119: messages one after the other. *)
Theorem C119_shows : forall hw s es, (forall n, hw n = true) -> by_code (z_props s) -> status_in (z_props s) <> None ->
  let s' := fst (sense_run hw s (SOn :: es)) in
  lamp_shows (status_in (z_props s')) (z_lamp s') /\ line_shows (status_in (z_props s')) (z_said s').
Proof. exact L_C119_shows. Qed.
Print Assumptions C119_shows.
Theorem C119_same : forall o s m, a_light mono_handler o -> z_props s = o_props o ->
  let '(o', _, r) := obj_message_received o m in
  let '(s', r') := sense_step (fun _ => true) s (SMsg m) in r' = r /\ z_props s' = o_props o'.
Proof. exact L_C119_same. Qed.
Print Assumptions C119_same.
(** The lamp driver fails after the status was set. *)
Theorem C119_broken_refuted : forall hw s m x y, hw (z_clears s) = false -> by_code (z_props s) -> status_in (z_props s) = Some [y] -> on_off y ->
  lamp_shows (status_in (z_props s)) (z_lamp s) -> on_off x -> x <> y -> m_ESV m = 0x60 \/ m_ESV m = 0x61 -> m_props m = [mkprop 0x80 [x]] ->
  exists s', sense_step hw s (SMsg m) = (s', Err OSError) /\ status_in (z_props s') = Some [x] /\ z_lamp s' = z_lamp s /\ ~ lamp_shows (status_in (z_props s')) (z_lamp s').
Proof. exact L_C119_broken_refuted. Qed.
Print Assumptions C119_broken_refuted.
(** Whatever the driver does, the lamp is what the last line says. *)
Theorem C119_line : forall hw es s s' rs, sense_run hw s es = (s', rs) ->
  exists new, z_said s' = z_said s ++ new /\ match new with [] => z_lamp s' = z_lamp s | _ => as_said (z_said s') (z_lamp s') end.
Proof. exact L_C119_line. Qed.
Print Assumptions C119_line.
(** C119: requests served by several threads. *)
Theorem C119_served : forall d lamp w r, w <> [] \/ length d <> 1%nat ->
  let h := hall_run (mkhall d lamp true [mkwork (IReq w :: r) PIdle []]) in
  exists n a lamp', h (repeat 0%nat n) = mkhall (light d [w]) lamp' true [mkwork r PIdle [a]] /\
  (a = true <-> length d = 1%nat /\ exists x l, w = x :: l /\ on_off x) /\ (a = false -> lamp' = lamp).
Proof. exact L_C119_served. Qed.
Print Assumptions C119_served.
Theorem C119_alone : forall h sched, Forall sane (q_work h) -> at_rest h -> lamp_shows (Some (q_status h)) (q_lamp h) ->
  (forall n, ~ overlap (hall_run h (firstn n sched))) -> at_rest (hall_run h sched) ->
  lamp_shows (Some (q_status (hall_run h sched))) (q_lamp (hall_run h sched)).
Proof. exact L_C119_alone. Qed.
Print Assumptions C119_alone.
(** After stop nothing is served any more. *)
Theorem C119_closed : forall h sched, q_open h = false -> at_rest h -> Forall (fun k => Forall (fun i => match i with ISwitch _ => False | _ => True end) (k_items k)) (q_work h) ->
  let h' := hall_run h sched in q_status h' = q_status h /\ q_lamp h' = q_lamp h /\ q_open h' = false /\ map k_ans (q_work h') = map k_ans (q_work h).
Proof. exact L_C119_closed. Qed.
Print Assumptions C119_closed.
Theorem C119_equal_partial : forall v h sched, on_off v -> Forall (asks_for v) (q_work h) -> at_rest h -> lamp_shows (Some (q_status h)) (q_lamp h) ->
  at_rest (hall_run h sched) -> lamp_shows (Some (q_status (hall_run h sched))) (q_lamp (hall_run h sched)).
Proof. exact L_C119_equal_partial. Qed.
Print Assumptions C119_equal_partial.
(** Two writes at the same time can end with status and lamp apart, although both are answered. *)
Theorem C119_race_refuted : forall y lamp x, on_off x -> exists sched z,
  on_off z /\ z <> x /\
  hall_run (mkhall [y] lamp true [mkwork [IReq [x]] PIdle []; mkwork [IReq [z]] PIdle []]) sched =
  mkhall [x] (colour z) true [mkwork [] PIdle [true]; mkwork [] PIdle [true]] /\
  ~ lamp_shows (Some [x]) (colour z).
Proof. exact L_C119_race_refuted. Qed.
Print Assumptions C119_race_refuted.
(** A request between off() and the end of stop leaves the lamp on. *)
Theorem C119_stop_refuted : forall y lamp, exists sched,
  let h := mkhall [y] lamp true [mkwork [ISwitch 0x31; IClose] PIdle []; mkwork [IReq [0x30]] PIdle []] in
  (forall n, ~ overlap (hall_run h (firstn n sched))) /\
  hall_run h sched = mkhall [0x30] [255; 255; 255] false [mkwork [] PIdle []; mkwork [] PIdle [true]].
Proof. exact L_C119_stop_refuted. Qed.
Print Assumptions C119_stop_refuted.
(** A light that is started, switched off and on again, and stopped. *)
Definition ly_props : props := [(0x80, mkoprop 0x80 [] 1 1 1); (0xB0, mkoprop 0xB0 [0x41] 1 2 0)].
Definition ly_write (l : list prop) : msg := mkmsg 1 0x0EF001 0x029101 0x61 l [] [] None None.
Definition ly_events : list sense_event :=
  [SOn; SMsg (ly_write [mkprop 0x80 [0x31]; mkprop 0xB0 [0x42]]); SMsg (ly_write [mkprop 0x80 [0x33]]); SMsg (ly_write [mkprop 0x80 []])].
Example C119_shows_ex : by_code ly_props /\ status_in ly_props <> None /\
  let '(s, rs) := sense_run (fun _ => true) (mksense ly_props [] [] 0) ly_events in
  z_lamp s = [0; 0; 0] /\ z_said s = ["ON"; "OFF"]%string /\ status_in (z_props s) = Some [0x31] /\ last rs (Ok None) = Err IndexError /\
  let '(s, _) := sense_run (fun _ => true) s [SMsg (ly_write [mkprop 0x80 [0x30]])] in z_lamp s = [255; 255; 255] /\ status_in (z_props s) = Some [0x30].
Proof.
  split; [intros c p; unfold ly_props; cbn [dget]; destruct (Z.eqb_spec c 0x80) as [->|_]; [intros [= <-]; reflexivity|]; destruct (Z.eqb_spec c 0xB0) as [->|_]; [intros [= <-]; reflexivity|discriminate]|].
  split; [vm_compute; discriminate|]. vm_compute. repeat split.
Qed.
(** The second clear fails. *)
Example C119_broken_ex : let '(s, rs) := sense_run (fun k => Nat.eqb k 0) (mksense ly_props [] [] 0) (firstn 2 ly_events) in
  z_lamp s = [255; 255; 255] /\ z_said s = ["ON"%string] /\ status_in (z_props s) = Some [0x31] /\ rs = [Ok None; Err OSError].
Proof. vm_compute. repeat split. Qed.
(** Three workers, one after the other; the program stops the light in between. *)
Definition ly_hall : hall := mkhall [0x30] [255; 255; 255] true
  [mkwork [ISwitch 0x31; IClose] PIdle []; mkwork [IReq [0x30; 7]; IReq [0x31]] PIdle []; mkwork [IReq [0x31]; IReq [0x30]] PIdle []].
Definition ly_sched : list nat := [2; 2; 2; 2; 1; 1; 1; 1; 1; 0; 0; 0; 2; 2; 2; 2; 0; 1]%nat.
Example C119_alone_ex : Forall sane (q_work ly_hall) /\ lamp_shows (Some (q_status ly_hall)) (q_lamp ly_hall) /\
  hall_run ly_hall ly_sched = mkhall [0x30] [255; 255; 255] false [mkwork [] PIdle []; mkwork [] PIdle [true; false]; mkwork [] PIdle [true; true]].
Proof. split; [unfold sane; cbn; repeat match goal with |- Forall _ _ => constructor; cbn end; unfold on_off; auto|]. split; [exists 0x30, []; auto|]. vm_compute. reflexivity. Qed.
Example C119_equal_ex : Forall (asks_for 0x31) [mkwork [ISwitch 0x31; IClose] PIdle []; mkwork [IReq [0x31]] PIdle []] /\
  hall_run (mkhall [0x30] [255; 255; 255] true [mkwork [ISwitch 0x31; IClose] PIdle []; mkwork [IReq [0x31]] PIdle []]) [0; 1; 1; 0; 0; 1; 1; 0]%nat =
  mkhall [0x31] [0; 0; 0] false [mkwork [] PIdle []; mkwork [] PIdle [true]].
Proof. split; [repeat constructor; exists []; reflexivity|vm_compute; reflexivity]. Qed.
