(** Proofs about the read-only objects and Manager.notify. *)
From Verif Require Import PyBase BytesM MsgM SpecWire SpecHex CodecP PropM ObjM DbData DbM DictP SpecObj SpecMap SpecReq ObjP MapP ReqP SpecDb DbP
  NodeM LocalM CtrlM SpecNode NodeP SpecProf ProfP SpecLocal LocalP AnswerP SpecSrv SrvP SelfP RestM.
Local Open Scope Z_scope.

Section WithSet.
Context {PS : PySet}.

(** Adding properties to a profile: the last added value of each code, but for the maps. *)
Lemma add_all_data ps : forall o0 base, tracks (o_props o0) base -> code_range o0 -> has_maps o0 ->
  (forall p, In p ps -> 0x80 <= op_code p < 0x100) ->
  exists o, add_all ps o0 = (o, Ok true) /\ tracks (o_props o) (base ++ ps) /\ code_range o /\ has_maps o /\
  forall c, ~ In c [0x9D; 0x9E; 0x9F] -> get_property c o = match last_added c ps with Some q => Some q | None => get_property c o0 end.
Proof.
  induction ps as [|p ps IH] using rev_ind; intros o0 base T R M H.
  - exists o0. rewrite app_nil_r. cbn [last_added add_all]. auto.
  - destruct (IH o0 base T R M) as (o & E & T1 & R1 & M1 & G); [intros q Hq; apply H, in_app_iff; now left|].
    rewrite add_all_snoc, E. unfold add_property_super, add_property_base.
    set (o1 := set_o_props (zset (op_code p) p (o_props o)) o).
    assert (T2 : tracks (o_props o1) ((base ++ ps) ++ [p])) by (now apply tracks_add).
    assert (R2 : code_range o1).
    { intros x Hx. unfold has_property, get_property, o1 in Hx. cbn [o_props set_o_props] in Hx.
      rewrite zget_zset in Hx. destruct (Z.eqb_spec x (op_code p)) as [Ex|].
      - rewrite Ex. apply H, in_app_iff. right. now left.
      - apply R1. exact Hx. }
    assert (HP : forall x, has_property x o = true -> has_property x o1 = true).
    { intros x Hx. unfold has_property, get_property, o1 in *. cbn [o_props set_o_props]. rewrite zget_zset.
      destruct (x =? op_code p); [reflexivity|exact Hx]. }
    assert (M2 : has_maps o1) by (destruct M1 as (A & B & C); repeat split; auto).
    rewrite (update_maps_ok o1 _ T2 R2 M2). exists (with_maps o1). split; [reflexivity|]. rewrite app_assoc.
    split; [now apply with_maps_tracks|].
    assert (HQ : forall x, has_property x (with_maps o1) = has_property x o1).
    { intros x. unfold has_property. rewrite with_maps_get. destruct (get_property x o1); reflexivity. }
    split; [intros x Hx; apply R2; now rewrite <- HQ|].
    split; [destruct M2 as (A & B & C); repeat split; now rewrite HQ|].
    intros c Hc. rewrite with_maps_get, last_added_snoc. cbn [In] in Hc.
    unfold SET_PROPERTY_MAP, GET_PROPERTY_MAP, ANNO_PROPERTY_MAP.
    replace (c =? 158) with false by lia. replace (c =? 159) with false by lia. replace (c =? 157) with false by lia.
    unfold o1, get_property. cbn [o_props set_o_props]. rewrite zget_zset. rewrite (Z.eqb_sym c).
    destruct (op_code p =? c); [reflexivity|]. fold (get_property c o). rewrite <- G by (cbn [In]; lia).
    destruct (get_property c o); reflexivity.
Qed.

Lemma copy_std_data g c o base : tracks (o_props o) base -> code_range o -> has_maps o ->
  exists o', copy_std (option_map build_object (std_entry_of g c)) o = (o', Ok tt) /\
    tracks (o_props o') (base ++ std_props g c) /\ code_range o' /\ has_maps o' /\
    o_code o' = o_code o /\ o_handler o' = o_handler o /\ o_cls o' = o_cls o /\
    forall k, ~ In k [0x9D; 0x9E; 0x9F] -> get_property k o' = match last_added k (std_props g c) with Some q => Some q | None => get_property k o end.
Proof.
  intros T R M. unfold std_props, std_rows. destruct (std_entry_of g c) as [[[[n gr] cl] rows]|] eqn:E; cbn [option_map copy_std].
  2:{ exists o. cbn [map last_added]. rewrite app_nil_r. auto 10. }
  set (e := (n, gr, cl, rows)) in *. pose proof (build_props e) as (TB & I & G). fold e in TB.
  unfold set_object_properties.
  assert (VR : forall p, In p (dvals (o_props (build_object e))) -> 0x80 <= op_code p < 0x100).
  { intros p Hp. apply I in Hp. apply in_map_iff in Hp. destruct Hp as (r & <- & Hr).
    apply row_matches. unfold all_rows. apply in_flat_map. exists e. split; [exact (std_entry_in _ _ _ E)|exact Hr]. }
  destruct (add_all_data (dvals (o_props (build_object e))) (set_o_name (o_name (build_object e)) o) base T R M VR)
    as (o' & A & T' & R' & M' & D).
  rewrite A. cbn [obind]. pose proof (add_all_frame _ _ _ _ A) as (F1 & _ & F3 & F4 & _).
  assert (LA : forall x, last_added x (dvals (o_props (build_object e))) = last_added x (map row_property rows)).
  { intros x. rewrite last_added_dvals; [|apply TB|apply (tracks_wf _ _ TB)]. rewrite G. reflexivity. }
  exists o'. split; [reflexivity|]. split; [|split; [assumption|]].
  - eapply tracks_ext; [|exact T']. intros x. rewrite !last_added_app, LA. reflexivity.
  - split; [assumption|]. split; [assumption|]. split; [assumption|]. split; [assumption|].
    intros k Hk. rewrite (D k Hk), LA. reflexivity.
Qed.

Definition np_own : list Z := [0x80; 0x82; 0x83; 0xBF; 0xD3; 0xD4; 0xD5; 0xD6; 0xD7].
Lemma np_own_std : forallb (fun c => match last_added c (std_props 0x0E 0xF0) with Some q => match op_data q with [] => true | _ => false end | None => false end) np_own = true.
Proof. vm_compute. reflexivity. Qed.
Lemma np_writable : forallb (fun c => match last_added c (std_props 0x0E 0xF0) with Some q => is_write_enabled q | None => false end) [0xBF] = true.
Proof. vm_compute. reflexivity. Qed.

Lemma readonly_ok r : exists p o, new_node_profile r = (p, Ok tt) /\ profile_ok p /\ shows [NP] p /\
  new_node_profile_readonly r = (o, Ok tt) /\ o_code o = 0x0EF002 /\ o_handler o = HReadOnly /\
  tracks (o_props o) (np_ps ++ std_props 0x0E 0xF0) /\ code_range o /\ has_maps o /\
  (exists o2, o = with_maps o2 /\ tracks (o_props o2) (np_ps ++ std_props 0x0E 0xF0) /\ code_range o2 /\ has_maps o2) /\
  forall k, ~ In k [0x9D; 0x9E; 0x9F] -> get_property k o = match last_added k (std_props 0x0E 0xF0) with Some q => Some q | None => get_property k p end.
Proof.
  unfold new_node_profile_readonly. destruct (new_node_profile_ok r) as (p & -> & P & S). cbn [obind].
  unfold profile_set_code. cbn [set_code negb]. rewrite db_get_int.
  change (group_of NODE_PROFILE_READONLY_CODE) with 0x0E. change (class_of NODE_PROFILE_READONLY_CODE) with 0xF0.
  set (q := set_o_code _ _). pose proof P as (T & R & M & C & H).
  assert (Tq : tracks (o_props q) np_ps) by exact T. assert (Rq : code_range q) by exact R. assert (Mq : has_maps q) by exact M.
  destruct (copy_std_data 0x0E 0xF0 q np_ps Tq Rq Mq) as (o & E & T1 & R1 & M1 & C1 & H1 & _ & G).
  rewrite E. cbn [obind]. rewrite (update_maps_ok o _ T1 R1 M1). cbn [obind].
  exists p, (with_maps o). split; [reflexivity|]. split; [exact P|]. split; [exact S|]. split; [reflexivity|].
  assert (HQ : forall x, has_property x (with_maps o) = has_property x o).
  { intros x. unfold has_property. rewrite with_maps_get. destruct (get_property x o); reflexivity. }
  split; [|split; [|split; [|split; [|split; [|split]]]]].
  - rewrite (proj1 (with_maps_frame o)). exact C1.
  - rewrite (proj2 (with_maps_frame o)). exact H1.
  - now apply with_maps_tracks.
  - intros x Hx. apply R1. now rewrite <- HQ.
  - destruct M1 as (A & B & D). repeat split; now rewrite HQ.
  - exists o. auto.
  - intros k Hk. rewrite with_maps_get, (G k Hk). change (get_property k q) with (get_property k p).
    unfold SET_PROPERTY_MAP, GET_PROPERTY_MAP, ANNO_PROPERTY_MAP. cbn [In] in Hk.
    replace (k =? 158) with false by lia. replace (k =? 159) with false by lia. replace (k =? 157) with false by lia.
    destruct (last_added k _); [reflexivity|]. destruct (get_property k p); reflexivity.
Qed.
End WithSet.

Definition ro_ps : list oprop := np_ps ++ std_props 0x0E 0xF0.
Definition ro_set : list Z := [0x81; 0x87; 0x8F; 0x93; 0x97; 0x98; 0x99; 0xBF].
Lemma ro_set_check :
  forallb (fun q => match last_added (op_code q) ro_ps with Some x => if is_write_enabled x then existsb (Z.eqb (op_code q)) ro_set else true | None => true end) ro_ps &&
  forallb (fun c => match last_added c ro_ps with Some x => is_write_enabled x | None => false end) ro_set = true.
Proof. vm_compute. reflexivity. Qed.
Lemma last_added_in c ps q : last_added c ps = Some q -> In q ps.
Proof.
  induction ps as [|p ps IH]; cbn [last_added]; [discriminate|]. destruct (last_added c ps) as [x|]; [intros E; right; apply IH; exact E|].
  destruct (op_code p =? c); [|discriminate]. intros E. left. congruence.
Qed.
Lemma ro_set_iff x : (exists q, last_added x ro_ps = Some q /\ is_write_enabled q = true) <-> In x ro_set.
Proof.
  pose proof ro_set_check as C. apply andb_true_iff in C. destruct C as (C1 & C2). rewrite forallb_forall in C1, C2. split.
  - intros (q & L & W). pose proof (last_added_code _ _ _ L) as E. specialize (C1 q (last_added_in _ _ _ L)). rewrite E, L, W in C1.
    apply existsb_exists in C1. destruct C1 as (y & I & Y). apply Z.eqb_eq in Y. now subst y.
  - intros I. specialize (C2 x I). destruct (last_added x ro_ps) as [q|]; [eauto|discriminate].
Qed.

(** C28 for the objects built by NodeProfileReadOnly(). *)
Lemma L_C28_built : forall (PS : PySet) r, exists o, new_node_profile_readonly r = (o, Ok tt) /\ o_code o = 0x0EF002 /\
  (forall c, In c [0x80; 0x82; 0x83; 0xBF; 0xD3; 0xD4; 0xD5; 0xD6; 0xD7] -> has_property c o = true) /\
  (forall ms, obj_run o ms = o) /\
  forall req, plain req ->
  ((m_ESV req = 0x60 \/ m_ESV req = 0x61) -> m_props req <> [] ->
     exists res, snd (obj_message_received o req) = Ok (Some res) /\ m_ESV res = 0x50) /\
  (m_ESV req = 0x6E -> m_sets req <> [] ->
     forall res, snd (obj_message_received o req) = Ok res ->
       exists r, res = Some r /\ m_ESV r = 0x5E) /\
  (m_ESV req = 0x6E -> (forall mp, In mp (m_gets req) -> has_property (p_code mp) o = true) ->
     exists res, snd (obj_message_received o req) = Ok res).
Proof.
  intros PS r. destruct (readonly_ok r) as (p & o & _ & _ & _ & E & C & H & T & R & M & _ & G). exists o. split; [exact E|]. split; [exact C|].
  assert (W : wf_obj o) by (intros c q Hq; exact (tracks_wf _ _ T c q Hq)).
  split; [|split].
  - intros c Hc. unfold has_property. rewrite G by (cbn [In] in *; lia). pose proof np_own_std as K. rewrite forallb_forall in K. specialize (K c Hc).
    destruct (last_added c _); [reflexivity|discriminate].
  - intros ms. apply L_C28_no_change; [exact H|exact W|apply T].
  - intros req P. exact (L_C28_refuses o req H W P).
Qed.

Lemma L_C83_values_refuted : forall (PS : PySet) r, exists p o, new_node_profile r = (p, Ok tt) /\ new_node_profile_readonly r = (o, Ok tt) /\
  get_property_data 0x80 p = Some [0x30] /\ get_property_data 0x82 p = Some [1; 0x0D; 1; 0] /\
  get_property_data 0x83 p = Some ([0xFE; 0; 0; 0] ++ rnd_id r) /\ get_property_data 0xD6 p = Some [0] /\
  forall c, In c [0x80; 0x82; 0x83; 0xBF; 0xD3; 0xD4; 0xD5; 0xD6; 0xD7] -> get_property_data c o = Some [].
Proof.
  intros PS r. destruct (readonly_ok r) as (p & o & Ep & P & Sh & E & C & H & T & R & M & _ & G). exists p, o.
  destruct (self_profile PS r p Ep) as (I1 & I2 & I3). destruct Sh as (_ & _ & S6 & _).
  split; [exact Ep|]. split; [exact E|]. split; [exact I1|]. split; [exact I2|]. split; [exact I3|]. split; [exact S6|].
  intros c Hc. unfold get_property_data. change (zget c (o_props o)) with (get_property c o).
  rewrite G by (cbn [In] in *; lia). pose proof np_own_std as K. rewrite forallb_forall in K. specialize (K c Hc).
  destruct (last_added c _) as [q|]; [|discriminate]. destruct (op_data q); [reflexivity|discriminate].
Qed.

Lemma L_C83_map_refuted : forall (PS : PySet) r, exists o l, new_node_profile_readonly r = (o, Ok tt) /\
  get_property_data 0x9E o = Some (zlen l :: l) /\ same_codes l [0x81; 0x87; 0x8F; 0x93; 0x97; 0x98; 0x99; 0xBF] /\
  forall ms, obj_run o ms = o.
Proof.
  intros PS r. destruct (L_C28_built PS r) as (o' & E' & _ & _ & Run & _).
  destruct (readonly_ok r) as (p & o & Ep & P & Sh & E & C & H & T & R & M & (o2 & EQ & T2 & R2 & M2) & G).
  assert (o' = o) by congruence. subst o'. exists o, (map_of is_write_enabled o2). split; [exact E|].
  destruct (map_of_ok is_write_enabled o2 _ attr_only_set T2 R2) as (B & L & N & Rg & I).
  assert (SC : same_codes (map_of is_write_enabled o2) ro_set) by (split; [exact N|]; intros x; rewrite I; apply ro_set_iff).
  split; [|split; [exact SC|exact Run]].
  rewrite EQ, (with_maps_data o2 0x9E is_write_enabled); [|cbn; tauto|exact M2]. f_equal.
  assert (Ln : (length (map_of is_write_enabled o2) <= 8)%nat).
  { change 8%nat with (length ro_set). apply NoDup_incl_length; [exact N|]. intros x Hx. now apply SC. }
  unfold map_data. replace (is_format1 _) with true; [reflexivity|]. symmetry. unfold is_format1, PROPERTYMAP_FORMAT1_MAX_SIZE, zlen. lia.
Qed.

(** ** SuperObjectReadOnly *)
Lemma L_C84_built_partial : (forall ms, obj_run new_super_readonly ms = new_super_readonly) /\
  forall req, plain req -> (m_ESV req = 0x60 \/ m_ESV req = 0x61) -> m_props req <> [] ->
  exists res, snd (obj_message_received new_super_readonly req) = Ok (Some res) /\ m_ESV res = 0x50.
Proof.
  assert (Hb : builtin (o_handler new_super_readonly)) by (left; reflexivity).
  assert (W : wf_obj new_super_readonly) by (intros c p H; discriminate). split.
  - intros ms. destruct (builtin_run ms _ Hb W) as (l & F & K & _). rewrite F. destruct (o_props (obj_run new_super_readonly ms)); [reflexivity|discriminate].
  - intros req P E N. destruct (L_C21_builtin_write _ req Hb W P E) as (o' & r & R & _ & _ & _).
    assert (I : In (m_ESV req) [0x60; 0x61; 0x62; 0x6E]) by (cbn; destruct E; auto).
    pose proof (L_C23_codes_partial _ req o' _ r Hb W P I R) as C. rewrite R. cbn [snd].
    replace (request_ok new_super_readonly req) with false in C.
    2:{ unfold request_ok. destruct (m_props req) as [|mp l]; [contradiction|]. destruct E as [-> | ->]; reflexivity. }
    destruct r as [res|]; [|destruct E as [E|E]; rewrite E in C; discriminate]. exists res. split; [reflexivity|].
    destruct E as [E|E]; rewrite E in C; cbn in C; congruence.
Qed.

Lemma L_C84_write_refuted : forall (PS : PySet) p d seoj, can_write p = true -> ~ In (op_code p) [0x9D; 0x9E; 0x9F] ->
  exists o o' told res, add_property_super (Some p) new_super_readonly = (o, Ok true) /\
  obj_message_received o (mkmsg 1 seoj 0x0EF002 0x61 [mkprop (op_code p) d] [] [] None None) = (o', told, Ok (Some res)) /\
  m_ESV res = 0x71 /\ get_property_data (op_code p) o' = Some d.
Proof.
  intros PS p d seoj Wr N. cbn [In] in N.
  exists (mkobj 0x0EF002 "" [(op_code p, p)] HSuper 0 [] CSuper). set (o := mkobj _ _ _ _ _ _ _).
  assert (A : add_property_super (Some p) new_super_readonly = (o, Ok true)).
  { unfold add_property_super, add_property_base. cbn [new_super_readonly new_super_object set_code fst o_props set_o_code set_o_props dset SUPER_READONLY_CODE].
    unfold update_property_maps, set_property_map, has_property, get_property. cbn [set_o_props o_props dget].
    replace (ANNO_PROPERTY_MAP =? op_code p) with false by (unfold ANNO_PROPERTY_MAP; lia). reflexivity. }
  set (req := mkmsg _ _ _ _ _ _ _ _ _).
  assert (Hb : builtin (o_handler o)) by (left; reflexivity).
  assert (G : get_property (op_code p) o = Some p) by (unfold get_property, o; cbn [o_props dget]; now rewrite Z.eqb_refl).
  assert (W : wf_obj o).
  { intros c q. unfold get_property, o. cbn [o_props dget]. destruct (Z.eqb_spec c (op_code p)); [|discriminate]. congruence. }
  assert (P : plain req) by (repeat split).
  destruct (L_C21_builtin_write o req Hb W P (or_intror eq_refl)) as (o' & r & R & Wn & _ & _).
  assert (I : In (m_ESV req) [0x60; 0x61; 0x62; 0x6E]) by (cbn; auto).
  pose proof (L_C23_codes_partial _ req o' _ r Hb W P I R) as C.
  replace (request_ok o req) with true in C.
  2:{ change (request_ok o req) with (snd (write_answer o (mkprop (op_code p) d)) && true).
      unfold write_answer. cbn [p_code p_data]. rewrite G. change (may_write (o_handler o) p) with (can_write p). rewrite Wr. reflexivity. }
  destruct r as [res|]; [|discriminate]. exists o', (o_obs o), res. split; [exact A|]. split; [exact R|]. split; [cbn in C; congruence|].
  destruct Wn as (_ & _ & H). specialize (H (op_code p)). rewrite G in H. unfold get_property_data.
  change (zget (op_code p) (o_props o')) with (get_property (op_code p) o'). rewrite H. change (may_write (o_handler o) p) with (can_write p). rewrite Wr.
  cbn [m_props req last_data p_code p_data]. rewrite Z.eqb_refl. reflexivity.
Qed.

(** ** Manager.notify *)
Lemma notify_servers_all (PS : PySet) w m l : quiet w -> no_raise w -> (forall v, In v l -> ~ In ONone (s_obs v)) -> forall tr s, ln_ctl s = None -> fitting_node s -> survives s m ->
  exists s' evs, notify_servers w tr s l m = (s', tr ++ evs, Ok tt) /\ told evs = flat_map (fun v => map (fun n => (n, m)) (users (s_obs v))) l.
Proof.
  intros Q N. induction l as [|v l IH]; intros NN tr s C Ft K; cbn [notify_servers flat_map].
  - exists s, []. rewrite app_nil_r. auto.
  - destruct (notify_all PS w m (s_obs v) Q N (NN v (or_introl eq_refl)) tr s C Ft K) as (s1 & e1 & -> & T1 & C1 & Ft1 & _ & K1).
    destruct (IH (fun u I => NN u (or_intror I)) (tr ++ e1) s1 C1 Ft1 (K1 m K)) as (s2 & e2 & -> & T2).
    exists s2, (e1 ++ e2). rewrite app_assoc, told_app, T1, T2. auto.
Qed.
Lemma L_C85_told_partial : forall (PS : PySet) w tr s a m, quiet w -> no_raise w -> ln_ctl s = None -> fitting_node s ->
  (forall i v, server_at s i = Some v -> ~ In ONone (s_obs v)) -> received_from a m -> knows_gets s m ->
  exists s' evs, mgr_notify w tr s m = (s', tr ++ evs, Ok tt) /\
  told evs = flat_map (fun v => map (fun n => (n, m)) (users (s_obs v))) (g_servers (ln_mgr s)).
Proof.
  intros PS w tr s a m Q N C Ft NN Hm K.
  assert (NN' : forall v, In v (g_servers (ln_mgr s)) -> ~ In ONone (s_obs v)).
  { intros v I. destruct (In_nth_error _ _ I) as (i & E). exact (NN i v E). }
  exact (notify_servers_all PS w m (g_servers (ln_mgr s)) Q N NN' tr s C Ft (conj (ex_intro _ a Hm) K)).
Qed.

Lemma adds_rest ns : forall s, let s2 := fold_left (fun s n => local_add_observer (OUser n) s) ns s in ln_node s2 = ln_node s /\ ln_ctl s2 = ln_ctl s.
Proof. induction ns as [|n ns IH]; intros s; cbn [fold_left]; [split; reflexivity|]. destruct (IH (local_add_observer (OUser n) s)) as (A & B). split; [rewrite A|rewrite B]; reflexivity. Qed.
Lemma flat_const {A B} (f : A -> list B) x l : (forall v, In v l -> f v = x) -> flat_map f l = concat (repeat x (length l)).
Proof. induction l as [|v l IH]; intros H; cbn [flat_map length repeat concat]; [reflexivity|]. rewrite (H v (or_introl eq_refl)), IH; [reflexivity|]. intros u I. apply H. now right. Qed.

(** Finding: after a start every observer is told once per server. *)
Lemma L_C85_once_refuted : forall (PS : PySet) w tr s l s1 tr1 ns a m, quiet w -> no_raise w ->
  local_start w tr s l = (s1, tr1, Ok true) -> ln_ctl s1 = None -> fitting_node s1 -> received_from a m -> knows_gets s1 m ->
  let s2 := fold_left (fun s n => local_add_observer (OUser n) s) ns s1 in
  exists s' evs, mgr_notify w tr1 s2 m = (s', tr1 ++ evs, Ok tt) /\
  told evs = concat (repeat (map (fun n => (n, m)) (firsts Nat.eqb ns)) (length (g_servers (ln_mgr s1)))).
Proof.
  intros PS w tr s l s1 tr1 ns a m Q N St C Ft Hm K s2. destruct (adds_rest ns s1) as (En & Ec). fold s2 in En, Ec.
  destruct (L_C43_observer_partial w tr s l s1 tr1 ns St) as (_ & O). fold s2 in O.
  assert (Ft2 : fitting_node s2). { intros k o Z. apply (Ft k o). unfold ln_objs in *. rewrite <- En. exact Z. }
  assert (K2 : knows_gets s2 m). { intros I o Z. apply (K I o). unfold ln_objs in *. rewrite <- En. exact Z. }
  assert (C2 : ln_ctl s2 = None) by congruence.
  assert (NN : forall i v, server_at s2 i = Some v -> ~ In ONone (s_obs v)) by (intros i v E; exact (proj2 (proj2 (O i v E)))).
  destruct (L_C85_told_partial PS w tr1 s2 a m Q N C2 Ft2 NN Hm K2) as (s' & evs & E & T). exists s', evs. split; [exact E|].
  rewrite T. rewrite (flat_const _ (map (fun n => (n, m)) (firsts Nat.eqb ns))).
  - f_equal. f_equal. unfold s2. clear. revert s1. induction ns as [|n ns IH]; intros s1; cbn [fold_left]; [reflexivity|]. rewrite IH. apply map_length.
  - intros v I. destruct (In_nth_error _ _ I) as (i & Ei). destruct (O i v Ei) as (_ & -> & _). reflexivity.
Qed.

(** ** Hex.from_string *)
Lemma L_C02_hex_any : hex_from_any None = Ok 0 /\ forall s b, hex_text s b -> hex_from_any (Some s) = Ok (be_val b).
Proof. split; [reflexivity|]. exact L_C02_hex_from_string. Qed.

(** The first observer that raises is the last that is told, and what the node did until then stays done. *)
Lemma L_C85_in_turn : forall (PS : PySet) w tr s m,
  mgr_notify w tr s m = notify w tr s (flat_map s_obs (g_servers (ln_mgr s))) m.
Proof.
  intros PS w tr s m. unfold mgr_notify. generalize (g_servers (ln_mgr s)) as l. intros l. revert tr s.
  assert (A : forall a b tr s, notify w tr s (a ++ b) m = match notify w tr s a m with (s1, tr1, Err e) => (s1, tr1, Err e) | (s1, tr1, Ok _) => notify w tr1 s1 b m end).
  { induction a as [|x a IH]; intros b tr s; cbn [app notify]; [reflexivity|]. destruct (tell w tr s x m) as [[s1 tr1] [[]|e]]; [apply IH|reflexivity]. }
  induction l as [|v l IH]; intros tr s; cbn [notify_servers flat_map]; [reflexivity|]. rewrite A. destruct (notify w tr s (s_obs v) m) as [[s1 tr1] [[]|e]]; [apply IH|reflexivity].
Qed.
Lemma L_C85_raises : forall (PS : PySet) w tr s l1 o l2 m s1 tr1 s2 tr2 e,
  flat_map s_obs (g_servers (ln_mgr s)) = l1 ++ o :: l2 ->
  notify w tr s l1 m = (s1, tr1, Ok tt) -> tell w tr1 s1 o m = (s2, tr2, Err e) ->
  mgr_notify w tr s m = (s2, tr2, Err e).
Proof.
  intros PS w tr s l1 o l2 m s1 tr1 s2 tr2 e E N T. rewrite L_C85_in_turn, E. clear E. revert tr s N.
  induction l1 as [|x l1 IH]; intros tr s N; cbn [app notify] in *.
  - assert (s = s1 /\ tr = tr1) as (-> & ->) by (split; congruence). rewrite T. reflexivity.
  - destruct (tell w tr s x m) as [[s3 tr3] [[]|e3]]; [exact (IH _ _ N)|discriminate N].
Qed.
