(** Property C92: the application sets data while requests are answered. *)
From Verif Require Import PyBase EsvM MsgM PropM ObjM TidM SpecWire SpecObj SpecReq NodeM ServeM SpecServe RunM SpecRun SpecStore MapP StoreP.
Local Open Scope nat_scope.

(** C92: the data of every object are those of the last store, by the application or by a request. *)
Theorem C92_data : forall (PS : PySet) h tab prof sets reqs sched i o, ready h tab sets -> nth_error h i = Some o ->
  exists o', nth_error (r_heap (rrun (sharing h tab prof sets reqs) sched)) i = Some o' /\ holds o (deeds tab sets reqs i sched) o'.
Proof. exact L_C92_data. Qed.
Print Assumptions C92_data.
(** C92: an answer tells of each property the data at the moment of its read. *)
Theorem C92_answer : forall (PS : PySet) h tab prof sets reqs sched r m i o j x, ready h tab sets -> nth_error reqs r = Some m ->
  zget (m_DEOJ m) tab = Some i -> nth_error h i = Some o -> let t := length sets + r in
  nth_error (r_thr (rrun (sharing h tab prof sets reqs) sched)) t = Some (TServe j (SDone x)) ->
  match snd (obj_message_received o m) with
  | Ok (Some a) => exists a', x = Ok (Some a') /\ rest_part m a' = rest_part m a /\ length (read_part m a') = length (asked_reads m) /\
      read_part m a' = reads_at o (deeds tab sets reqs i) (asked_reads m) (skipn (first_read m) (ticks t sched))
  | y => x = y
  end.
Proof. exact L_C92_answer. Qed.
Print Assumptions C92_answer.
Theorem C92_unknown : forall (PS : PySet) h tab prof sets reqs sched r m, ready h tab sets -> nth_error reqs r = Some m ->
  zget (m_DEOJ m) tab = None -> let t := length sets + r in In t sched ->
  nth_error (r_thr (rrun (sharing h tab prof sets reqs) sched)) t = Some TNone.
Proof. exact L_C92_unknown. Qed.
Print Assumptions C92_unknown.
Theorem C92_results : forall (PS : PySet) h tab prof sets reqs sched u l, ready h tab sets -> nth_error sets u = Some l ->
  results_of u (rrun (sharing h tab prof sets reqs) sched) =
  map (fun x => UBool match nth_error h (fst (fst x)) with Some o => isSome (get_property (snd (fst x)) o) | None => false end) (firstn (steps_of u sched) l).
Proof. exact L_C92_results. Qed.
Print Assumptions C92_results.
Theorem C92_ends : forall (PS : PySet) h tab prof sets reqs sched r m, ready h tab sets -> nth_error reqs r = Some m -> let t := length sets + r in
  3 + length (m_props m) + length (m_sets m) + length (m_gets m) <= steps_of t sched ->
  let s := rrun (sharing h tab prof sets reqs) sched in
  nth_error (r_thr s) t = Some TNone \/ exists i x, nth_error (r_thr s) t = Some (TServe i (SDone x)).
Proof. exact L_C92_ends. Qed.
Print Assumptions C92_ends.
Definition kx_light (c : Z) : obj :=
  mkobj c "" [(0x80%Z, mkoprop 0x80 [0x30%Z] 1 1 1); (0xB0%Z, mkoprop 0xB0 [1%Z] 1 0 0)] HSuper 0 [] CObject.
Definition kx_h : list obj := [kx_light 0x029101; kx_light 0x029102].
Definition kx_tab : list (Z * nat) := [(0x029101%Z, 0); (0x029102%Z, 1)].
Definition kx_sets : list (list (nat * Z * list Z)) :=
  [[(0, 0x80%Z, [0x41%Z]); (0, 0xB0%Z, [5%Z]); (1, 0x99%Z, [9%Z])]; [(1, 0x80%Z, [0x42%Z])]].
Definition kx_req (t d e : Z) (ps : list prop) : msg := mkmsg t 0x05FF01 d e ps [] [] None None.
Definition kx_reqs : list msg :=
  [kx_req 1 0x029101 0x62 [mkprop 0x80 []; mkprop 0xB0 []]; kx_req 2 0x029101 0x61 [mkprop 0x80 [0x31%Z]; mkprop 0xB0 [7%Z]]; kx_req 3 0x029109 0x62 []].
Definition kx_sched : list nat := [2; 2; 0; 3; 0; 2; 3; 4; 1; 3; 2; 0; 3].
Example C92_ex :
  ready kx_h kx_tab kx_sets /\
  let s := @rrun pyset_nodup (sharing kx_h kx_tab 0 kx_sets kx_reqs) kx_sched in
  deeds kx_tab kx_sets kx_reqs 0 kx_sched =
    [Stored 0x80 [0x41%Z]; Stored 0xB0 [5%Z]; Asked (mkprop 0x80 [0x31%Z]); Asked (mkprop 0xB0 [7%Z])] /\
  map (fun o => (get_property_data 0x80 o, get_property_data 0xB0 o)) (r_heap s) = [(Some [0x31%Z], Some [5%Z]); (Some [0x42%Z], Some [1%Z])] /\
  (* the first property as before both stores of the application, the second as after both *)
  nth_error (r_thr s) 2 = Some (TServe 0 (SDone (Ok (Some (mkmsg 1 0x029101 0x05FF01 0x72 [mkprop 0x80 [0x30%Z]; mkprop 0xB0 [5%Z]] [] [] None None))))) /\
  nth_error (r_thr s) 3 = Some (TServe 0 (SDone (Ok (Some (mkmsg 2 0x029101 0x05FF01 0x50 [mkprop 0x80 []; mkprop 0xB0 [7%Z]] [] [] None None))))) /\
  nth_error (r_thr s) 4 = Some TNone /\
  results_of 0 s = [UBool true; UBool true; UBool false].
Proof.
  split; [|vm_compute; repeat split]. split; [|split].
  - intros i o E. assert (B : forall c, builtin (o_handler (kx_light c)) /\ wf_obj (kx_light c)).
    { intros c. split; [left; reflexivity|]. intros k p. unfold get_property. cbn [kx_light o_props dget]. destruct (Z.eqb_spec k 0x80) as [->|_]; [intros Q; assert (p = mkoprop 0x80 [0x30%Z] 1 1 1) by congruence; now subst|].
      destruct (Z.eqb_spec k 0xB0) as [->|_]; [intros Q; assert (p = mkoprop 0xB0 [1%Z] 1 0 0) by congruence; now subst|discriminate]. }
    destruct i as [|[|i]]; [assert (o = kx_light 0x029101) by (cbn in E; congruence); now subst|assert (o = kx_light 0x029102) by (cbn in E; congruence); now subst|destruct i; discriminate].
  - intros c i. cbn [kx_tab dget]. destruct (c =? 0x029101)%Z; [intros E; assert (i = 0) by congruence; subst; cbn; lia|].
    destruct (c =? 0x029102)%Z; [intros E; assert (i = 1) by congruence; subst; cbn; lia|discriminate].
  - intros l i c d [<-|[<-|[]]] I; cbn in I.
    + destruct I as [I|[I|[I|[]]]]; inversion I; subst; cbn; lia.
    + destruct I as [I|[]]; inversion I; subst; cbn; lia.
Qed.
