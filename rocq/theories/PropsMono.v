(** Property C72: the example light. *)
From Verif Require Import PyBase BytesM EsvM MsgM PropM ObjM DbData DbM NodeM LocalM
  SpecWire SpecObj SpecReq SpecNode SpecLocal MonoM SpecMono MapP NodeP LocalP EndP MonoP.

Theorem C72_exact : forall o ms, a_light mono_handler o ->
  status (obj_run o ms) = option_map (fun d => fold_left light (map status_writes ms) d) (status o).
Proof. exact L_C72_exact. Qed.
Print Assumptions C72_exact.
Definition mx_light (d : list Z) : obj := mkobj 0x029101 "Mono functional lighting" [(0x80, mkoprop 0x80 d 1 1 1); (0xB0, mkoprop 0xB0 [0x42] 1 2 0)] mono_handler 0 [] CObject.
Lemma mx_ok d : a_light mono_handler (mx_light d).
Proof.
  split; [reflexivity|]. intros c p. unfold get_property. cbn [mx_light o_props dget]. destruct (Z.eqb_spec c 0x80) as [->|]; [intros [= <-]; reflexivity|].
  destruct (Z.eqb_spec c 0xB0) as [->|]; [intros [= <-]; reflexivity|discriminate].
Qed.
Definition mx_write (e : Z) (d : list Z) : msg := mkmsg 1 0x05FF01 0x029101 e [mkprop 0x80 d] [] [] None None.
(** Off, a refused value, a read, a write to another property, on. *)
Definition mx_msgs : list msg :=
  [mx_write 0x61 [0x31]; mx_write 0x61 [0x32]; mx_write 0x62 [];
   mkmsg 2 0x05FF01 0x029101 0x6E [] [mkprop 0xB0 [0x41]; mkprop 0x80 [0x30]] [mkprop 0x80 []] None None].
Example C72_ex : status (obj_run (mx_light [0x30]) (firstn 3 mx_msgs)) = Some [0x31] /\
  status (obj_run (mx_light [0x30]) mx_msgs) = Some [0x30].
Proof. rewrite !C72_exact by apply mx_ok. split; reflexivity. Qed.

Theorem C72_first_byte : forall o ms x l, a_light mono_handler o -> status o = Some (x :: l) -> on_off x ->
  exists y l', status (obj_run o ms) = Some (y :: l') /\ on_off y.
Proof. exact L_C72_first_byte. Qed.
Print Assumptions C72_first_byte.
Theorem C72_status_partial : forall o ms x, a_light mono_handler o -> status o = Some [x] -> on_off x ->
  (forall m w, In m ms -> In w (status_writes m) -> length w = 1%nat) ->
  exists y, status (obj_run o ms) = Some [y] /\ on_off y /\
  y = last (filter on_offb (concat (concat (map status_writes ms)))) x.
Proof. exact L_C72_status_partial. Qed.
Print Assumptions C72_status_partial.
Example C72_status_ex : (forall m w, In m mx_msgs -> In w (status_writes m) -> length w = 1%nat) /\
  last (filter on_offb (concat (concat (map status_writes mx_msgs)))) 0x30 = 0x30 /\
  last (filter on_offb (concat (concat (map status_writes (firstn 3 mx_msgs))))) 0x30 = 0x31.
Proof.
  split; [|split; reflexivity]. intros m w I. cbn [mx_msgs In] in I. destruct I as [<-|[<-|[<-|[<-|[]]]]]; cbn;
    repeat (intros [<-|H]; [reflexivity|revert H]); contradiction.
Qed.

Theorem C72_stuck_refuted : 
  (* a write of two bytes is stored ... *)
  (forall o x y m, a_light mono_handler o -> status o = Some [x] -> m_ESV m = 0x60 \/ m_ESV m = 0x61 -> m_props m = [mkprop 0x80 [0x30; y]] ->
     status (obj_step o m) = Some [0x30; y]) /\
  (* ... and after that no message changes the status *)
  (forall o d ms, a_light mono_handler o -> status o = Some d -> length d <> 1%nat -> status (obj_run o ms) = Some d).
Proof. exact L_C72_stuck_refuted. Qed.
Print Assumptions C72_stuck_refuted.
(** On with one byte too many; after that the light cannot be switched off. *)
Example C72_stuck_ex : status (obj_run (mx_light [0x30]) [mx_write 0x61 [0x30; 0]]) = Some [0x30; 0] /\
  status (obj_run (mx_light [0x30]) [mx_write 0x61 [0x30; 0]; mx_write 0x61 [0x31]; mx_write 0x60 [0x30]]) = Some [0x30; 0] /\
  option_map (fun a => (m_ESV a, m_props a)) (match snd (obj_message_received (mx_light [0x30; 0]) (mx_write 0x61 [0x31])) with Ok a => a | Err _ => None end) = Some (0x50, [mkprop 0x80 [0x31]]).
Proof. repeat split; vm_compute; reflexivity. Qed.
Theorem C72_empty_refuted : forall o x m l, a_light mono_handler o -> status o = Some [x] -> m_ESV m = 0x60 \/ m_ESV m = 0x61 -> m_props m = mkprop 0x80 [] :: l ->
  snd (obj_message_received o m) = Err IndexError.
Proof. exact L_C72_empty_refuted. Qed.
Print Assumptions C72_empty_refuted.
Example C72_empty_ex : snd (obj_message_received (mx_light [0x30]) (mx_write 0x61 [])) = Err IndexError.
Proof. exact (C72_empty_refuted (mx_light [0x30]) 0x30 (mx_write 0x61 []) [] (mx_ok _) eq_refl (or_intror eq_refl) eq_refl). Qed.

Theorem C72_new : forall (PS : PySet) r, exists s o, new_mono_node r = (s, Ok true) /\ zget 0x029101 (ln_objs s) = Some o /\
  a_light mono_handler o /\ status o = Some [].
Proof. exact L_C72_new. Qed.
Print Assumptions C72_new.
Theorem C72_switched : forall w tr s o, zget 0x029101 (ln_objs s) = Some o -> a_light mono_handler o -> status o <> None ->
  (forall s' tr' r, mono_start w tr s = (s', tr', r) -> exists o', zget 0x029101 (ln_objs s') = Some o' /\ a_light mono_handler o' /\ status o' = Some [0x30]) /\
  (forall s' tr' r, mono_stop tr s = (s', tr', r) -> exists o', zget 0x029101 (ln_objs s') = Some o' /\ a_light mono_handler o' /\ status o' = Some [0x31]).
Proof. exact L_C72_switched. Qed.
Print Assumptions C72_switched.
(** From the constructor over start to stop, with one message in between. *)
Definition mx_node : lnode := mkln (mknode None [(0x029101, mx_light [])]) InTable 1 new_manager None.
Example C72_switched_ex : exists s tr, mono_start good_os [] mx_node = (s, tr, Ok true) /\
  option_map status (zget 0x029101 (ln_objs s)) = Some (Some [0x30]) /\
  option_map status (zget 0x029101 (ln_objs (fst (fst (mono_stop tr s))))) = Some (Some [0x31]).
Proof. do 2 eexists. split; [vm_compute; reflexivity|]. split; vm_compute; reflexivity. Qed.
