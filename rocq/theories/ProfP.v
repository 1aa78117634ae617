(** Lemmas for C35, C36: the node profile of a LocalNode. *)
From Verif Require Import PyBase BytesM EsvM MsgM PropM ObjM DbData DbM NodeM LocalM CtrlM
  SpecWire SpecObj SpecMap SpecReq SpecDb SpecNode SpecProf DictP BytesP ObjP MapP ReqP DbP NodeP.
Require Import ZifyBool.

Definition NP : Z := 0x0EF001.
Definition np_ps : list oprop := std_ps NP.

Lemma pair_eqb_eq a b : pair_eqb a b = true <-> a = b.
Proof. apply key_eqb_eq. Qed.

Definition np_codes : list Z := [0xD3; 0xD4; 0xD5; 0xD6; 0xD7; 0x9D; 0x9E; 0x9F].
Lemma np_has_codes : forallb (fun c => isSome (last_added c np_ps)) np_codes = true.
Proof. vm_compute. reflexivity. Qed.
Lemma np_readable : forallb (fun c => match last_added c np_ps with Some p => can_read p | None => false end) [0xD3; 0xD4; 0xD5; 0xD6; 0xD7] = true.
Proof. vm_compute. reflexivity. Qed.
Lemma np_not_writable : forallb (fun c => match last_added c np_ps with Some p => op_set p =? 0 | None => false end) np_codes = true.
Proof. vm_compute. reflexivity. Qed.
Lemma np_ps_eq : np_ps = std_props 0 0 ++ std_props (group_of NP) (class_of NP).
Proof. reflexivity. Qed.
#[global] Opaque np_ps.

Definition profile_ok (p : obj) : Prop :=
  tracks (o_props p) np_ps /\ code_range p /\ has_maps p /\ o_code p = NP /\ o_handler p = HSuper.

Lemma tracks_has o ps c : tracks (o_props o) ps -> isSome (last_added c ps) = true -> has_property c o = true.
Proof.
  intros (_ & T) H. specialize (T c). unfold has_property, get_property.
  destruct (last_added c ps); [|discriminate]. destruct (zget c (o_props o)); [reflexivity|contradiction].
Qed.
Lemma profile_has p c : profile_ok p -> In c np_codes -> has_property c p = true.
Proof.
  intros (T & _) H. apply (tracks_has _ _ _ T). pose proof np_has_codes as E. rewrite forallb_forall in E. now apply E.
Qed.
Lemma profile_readable p c q : profile_ok p -> In c [0xD3; 0xD4; 0xD5; 0xD6; 0xD7] -> get_property c p = Some q -> can_read q = true.
Proof.
  intros ((_ & T) & _) H G. specialize (T c). unfold get_property in G. rewrite G in T.
  pose proof np_readable as E. rewrite forallb_forall in E. specialize (E c H). 
  destruct (last_added c np_ps) as [r|]; [|discriminate]. destruct T as ((_ & A & _) & _). unfold can_read in *. now rewrite A.
Qed.
Lemma profile_not_writable p c q : profile_ok p -> In c np_codes -> get_property c p = Some q -> op_set q = 0.
Proof.
  intros ((_ & T) & _) H G. specialize (T c). unfold get_property in G. rewrite G in T.
  pose proof np_not_writable as E. rewrite forallb_forall in E. specialize (E c H). 
  destruct (last_added c np_ps) as [r|]; [|discriminate]. destruct T as ((_ & _ & A & _) & _). lia.
Qed.

Lemma set_data_true c d o : has_property c o = true -> set_property_data c d o = (fst (set_property_data c d o), true).
Proof. unfold has_property, set_property_data. destruct (get_property c o); [reflexivity|discriminate]. Qed.
Lemma profile_ok_data c d p : profile_ok p -> profile_ok (fst (set_property_data c d p)).
Proof.
  intros (T & R & (M1 & M2 & M3) & C & H). split; [now apply tracks_data|]. split; [intros x; rewrite has_data; apply R|].
  split; [repeat split; rewrite has_data; assumption|].
  unfold set_property_data. destruct (get_property c p); auto.
Qed.
Lemma with_maps_frame {PS : PySet} o : o_code (with_maps o) = o_code o /\ o_handler (with_maps o) = o_handler o.
Proof.
  assert (F : forall c d x, o_code (fst (set_property_data c d x)) = o_code x /\ o_handler (fst (set_property_data c d x)) = o_handler x).
  { intros c d x. unfold set_property_data. destruct (get_property c x); auto. }
  unfold with_maps. split; repeat (etransitivity; [apply F|]); reflexivity.
Qed.
Lemma profile_ok_maps {PS : PySet} p : profile_ok p -> profile_ok (with_maps p).
Proof.
  intros (T & R & (M1 & M2 & M3) & C & H). pose proof (with_maps_frame p) as (F1 & F2).
  split; [now apply with_maps_tracks|]. split; [intros x; rewrite with_maps_has; apply R|].
  split; [repeat split; rewrite with_maps_has; assumption|]. rewrite F1, F2. auto.
Qed.

(** ** The loops *)
Lemma is_np_spec c : is_node_profile_object c = is_profile_code c.
Proof. unfold is_node_profile_object, is_profile_code, NODE_PROFILE_CODE, NODE_PROFILE_READONLY_CODE. 
  destruct (c =? 0x0EF001); [reflexivity|]. destruct (c =? 0x0EF002); reflexivity. Qed.

Lemma instance_loop codes : np_instance_loop codes = (zlen (device_codes codes), flat_map (be 3) (device_codes codes)).
Proof.
  unfold np_instance_loop. 
  enough (H : forall n l, fold_left (fun st code => let '(cnt, l) := st in
      if is_node_profile_object code then (cnt, l) else (cnt + 1, l ++ from_int_n code 3)) codes (n, l)
      = (n + zlen (device_codes codes), l ++ flat_map (be 3) (device_codes codes))) by (rewrite H; reflexivity).
  induction codes as [|c codes IH]; intros n l; cbn [fold_left device_codes filter].
  - unfold zlen. cbn. rewrite app_nil_r. f_equal. lia.
  - rewrite is_np_spec. destruct (is_profile_code c); cbn [negb]; [apply IH|].
    rewrite IH, from_int_n_be. fold (device_codes codes). cbn [flat_map]. unfold zlen. cbn [length]. rewrite app_assoc. f_equal. lia.
Qed.

Lemma has_same_class_flat g c l : has_same_class g c (class_bytes l) = existsb (pair_eqb (g, c)) l.
Proof.
  induction l as [|[x y] l IH]; [reflexivity|]. cbn [class_bytes flat_map app fst snd has_same_class existsb].
  fold (class_bytes l). rewrite IH. change (pair_eqb (g, c) (x, y)) with ((g =? x) && (c =? y)). rewrite (Z.eqb_sym g x), (Z.eqb_sym c y).
  destruct ((x =? g) && (y =? c)); reflexivity.
Qed.
Lemma existsb_firsts {A} eqb (H : forall a b : A, eqb a b = true <-> a = b) x l :
  existsb (eqb x) (firsts eqb l) = existsb (eqb x) l.
Proof.
  destruct (existsb (eqb x) l) eqn:E.
  - apply existsb_exists in E. destruct E as (k & K & Ek). apply existsb_exists. exists k.
    split; [now apply (proj2 (firsts_in eqb H _ _))|assumption].
  - destruct (existsb (eqb x) (firsts eqb l)) eqn:E'; [|reflexivity].
    apply existsb_exists in E'. destruct E' as (k & K & Ek). apply (proj1 (firsts_in eqb H _ _)) in K.
    enough (true = false) by discriminate. rewrite <- E. symmetry. apply existsb_exists. exists k. split; assumption.
Qed.

Lemma class_loop codes : np_class_loop codes = (zlen codes, class_bytes (classes (device_codes codes))).
Proof.
  unfold np_class_loop. induction codes as [|c codes IH] using rev_ind; [reflexivity|].
  rewrite fold_left_app, IH. cbn [fold_left]. 
  assert (L : zlen codes + 1 = zlen (codes ++ [c])) by (unfold zlen; rewrite app_length; cbn [length]; lia).
  rewrite L, is_np_spec. unfold device_codes. rewrite filter_app. cbn [filter].
  destruct (is_profile_code c); cbn [negb]; [now rewrite app_nil_r|].
  fold (device_codes codes). unfold classes. rewrite map_app. cbn [map].
  rewrite (firsts_snoc pair_eqb pair_eqb_eq).
  rewrite has_same_class_flat, group_code_of, class_code_of, (existsb_firsts pair_eqb pair_eqb_eq).
  unfold class_pair. destruct (existsb _ _); [reflexivity|].
  unfold class_bytes. rewrite flat_map_app. reflexivity.
Qed.

(** ** The profile after an update *)
Section WithSet.
Context {PS : PySet}.

Definition shows (codes : list Z) (p : obj) : Prop :=
  let l := device_codes codes in
  get_property_data 0xD3 p = Some (be 3 (zlen l)) /\
  get_property_data 0xD5 p = Some (be 1 (zlen l) ++ flat_map (be 3) l) /\
  get_property_data 0xD6 p = Some (be 1 (zlen l) ++ flat_map (be 3) l) /\
  get_property_data 0xD4 p = Some (be 2 (zlen codes)) /\
  get_property_data 0xD7 p = Some (be 1 (zlen codes) ++ class_bytes (classes l)).

Lemma get_data_set c d k o : get_property_data k (fst (set_property_data c d o)) =
  match get_property_data k o with
  | Some x => Some (if c =? k then d else x)
  | None => None
  end.
Proof.
  unfold get_property_data. change (zget k (o_props ?x)) with (get_property k x).
  change (zget k (o_props (fst (set_property_data c d o)))) with (get_property k (fst (set_property_data c d o))).
  rewrite set_property_data_get. fold (get_property k o). destruct (c =? k); destruct (get_property k o); reflexivity.
Qed.
Lemma get_data_maps k o : k <> 0x9D -> k <> 0x9E -> k <> 0x9F -> get_property_data k (with_maps o) = get_property_data k o.
Proof.
  intros H1 H2 H3. unfold with_maps. rewrite !get_data_set.
  unfold SET_PROPERTY_MAP, GET_PROPERTY_MAP, ANNO_PROPERTY_MAP.
  replace (158 =? k) with false by lia. replace (159 =? k) with false by lia. replace (157 =? k) with false by lia.
  destruct (get_property_data k o); reflexivity.
Qed.
Lemma has_data_some k o : has_property k o = true -> exists d, get_property_data k o = Some d.
Proof.
  unfold has_property, get_property_data. change (zget k (o_props o)) with (get_property k o).
  destruct (get_property k o); [eauto|discriminate].
Qed.

Lemma np_update_ok codes p : profile_ok p ->
  exists p', np_update_map codes p = (p', Ok true) /\ profile_ok p' /\ shows codes p' /\
    (forall c, ~ In c np_codes -> get_property c p' = get_property c p).
Proof.
  intros P. unfold np_update_map, np_update_instances. rewrite instance_loop.
  set (n := zlen (device_codes codes)). set (l := flat_map (be 3) (device_codes codes)).
  rewrite set_data_true by (apply profile_has; [assumption|cbn; tauto]).
  set (p1 := fst (set_property_data 0xD3 _ p)). assert (P1 : profile_ok p1) by now apply profile_ok_data.
  rewrite set_data_true by (apply profile_has; [assumption|cbn; tauto]).
  set (p2 := fst (set_property_data 0xD5 _ p1)). assert (P2 : profile_ok p2) by now apply profile_ok_data.
  rewrite set_data_true by (apply profile_has; [assumption|cbn; tauto]).
  set (p3 := fst (set_property_data 0xD6 _ p2)). assert (P3 : profile_ok p3) by now apply profile_ok_data.
  unfold np_update_classes. rewrite class_loop.
  rewrite set_data_true by (apply profile_has; [assumption|cbn; tauto]).
  set (p4 := fst (set_property_data 0xD4 _ p3)). assert (P4 : profile_ok p4) by now apply profile_ok_data.
  rewrite set_data_true by (apply profile_has; [assumption|cbn; tauto]).
  set (p5 := fst (set_property_data 0xD7 _ p4)). assert (P5 : profile_ok p5) by now apply profile_ok_data.
  pose proof P5 as (T & R & M & _). rewrite (update_maps_ok p5 _ T R M).
  exists (with_maps p5). split; [reflexivity|]. split; [now apply profile_ok_maps|]. split.
  - assert (H : forall c, In c np_codes -> exists d, get_property_data c p = Some d).
    { intros c Hc. apply has_data_some. now apply profile_has. }
    unfold shows. fold n l.
    repeat apply conj; rewrite get_data_maps by lia; unfold p5, p4, p3, p2, p1; rewrite !get_data_set.
    + destruct (H 0xD3) as (d & ->); [cbn; tauto|]. cbn [Z.eqb Pos.eqb]. now rewrite from_int_n_be.
    + destruct (H 0xD5) as (d & ->); [cbn; tauto|]. cbn [Z.eqb Pos.eqb]. now rewrite from_int_n_be.
    + destruct (H 0xD6) as (d & ->); [cbn; tauto|]. cbn [Z.eqb Pos.eqb]. now rewrite from_int_n_be.
    + destruct (H 0xD4) as (d & ->); [cbn; tauto|]. cbn [Z.eqb Pos.eqb]. now rewrite from_int_n_be.
    + destruct (H 0xD7) as (d & ->); [cbn; tauto|]. cbn [Z.eqb Pos.eqb]. now rewrite from_int_n_be.
  - intros c Hc. assert (D : forall k, In k np_codes -> c <> k) by (intros k Hk ->; contradiction).
    rewrite with_maps_get. unfold SET_PROPERTY_MAP, GET_PROPERTY_MAP, ANNO_PROPERTY_MAP.
    pose proof (D 0x9D). pose proof (D 0x9E). pose proof (D 0x9F). pose proof (D 0xD3). pose proof (D 0xD4).
    pose proof (D 0xD5). pose proof (D 0xD6). pose proof (D 0xD7). cbn [np_codes In] in *.
    replace (c =? 158) with false by lia. replace (c =? 159) with false by lia. replace (c =? 157) with false by lia.
    unfold p5, p4, p3, p2, p1. rewrite !set_property_data_get.
    replace (0xD3 =? c) with false by lia. replace (0xD4 =? c) with false by lia. replace (0xD5 =? c) with false by lia.
    replace (0xD6 =? c) with false by lia. replace (0xD7 =? c) with false by lia.
    destruct (get_property c p); reflexivity.
Qed.

Lemma new_profile_np : exists p, new_profile (PInt NODE_PROFILE_CODE) = (p, Ok tt) /\ profile_ok p.
Proof.
  unfold new_profile, profile_set_code.
  set (o0 := mkobj CODE_UNKNOWN "" [] HSuper 0 [] CProfile).
  assert (T0 : tracks (o_props o0) []) by (split; [constructor|intros x; reflexivity]).
  assert (R0 : code_range o0) by (intros x Hx; discriminate).
  rewrite !db_get_int. change (group_of SUPER_CODE) with 0. change (class_of SUPER_CODE) with 0.
  destruct (copy_std_ok 0 0 o0 [] T0 R0) as (o1 & E1 & T1 & R1 & C1 & H1 & K1). rewrite E1. cbn [obind app set_code negb] in *.
  assert (T1' : tracks (o_props (set_o_code NODE_PROFILE_CODE o1)) (std_props 0 0)) by exact T1.
  assert (R1' : code_range (set_o_code NODE_PROFILE_CODE o1)) by exact R1.
  destruct (copy_std_ok (group_of NODE_PROFILE_CODE) (class_of NODE_PROFILE_CODE) _ _ T1' R1') as (o2 & E2 & T2 & R2 & C2 & H2 & K2).
  rewrite E2. cbn [obind].
  assert (M : has_maps o2).
  { apply (has_maps_of o2 _ T2). intros c Hc. destruct (super_has_maps c Hc) as (p & Hp & Ep).
    exists p. split; [apply in_app_iff; now left|assumption]. }
  rewrite (update_maps_ok o2 _ T2 R2 M). cbn [obind]. exists (with_maps o2). split; [reflexivity|].
  apply profile_ok_maps. split; [rewrite np_ps_eq; exact T2|]. split; [exact R2|]. split; [exact M|].
  rewrite C2, H2. split; [reflexivity|]. exact H1.
Qed.

Lemma new_node_profile_ok r : exists p, new_node_profile r = (p, Ok tt) /\ profile_ok p /\ shows [NP] p.
Proof.
  unfold new_node_profile. destruct new_profile_np as (p & -> & P). cbn [obind].
  set (p1 := np_update_initial r _).
  assert (P1 : profile_ok p1).
  { unfold p1, np_update_initial, stmt_data. repeat apply profile_ok_data.
    destruct P as (T & R & M & C & H). split; [exact T|]. split; [exact R|]. split; [exact M|]. split; [exact C|reflexivity]. }
  destruct (np_update_ok [o_code p1] p1 P1) as (p2 & -> & P2 & S & _). cbn [obind]. exists p2.
  split; [reflexivity|]. split; [assumption|]. destruct P1 as (_ & _ & _ & C & _). rewrite C in S. exact S.
Qed.

(** ** Local nodes *)
Definition lwf (s : lnode) : Prop := forall k o, In (k, o) (ln_objs s) -> o_code o = k.
Definition linv (s : lnode) : Prop :=
  ln_prof s = InTable /\ lwf s /\ NoDup (dkeys (ln_objs s)) /\
  exists p, zget NP (ln_objs s) = Some p /\ profile_ok p /\ shows (dkeys (ln_objs s)) p.

Lemma lwf_codes s : lwf s -> node_codes s = dkeys (ln_objs s).
Proof.
  intros W. unfold node_codes, node_objects, dvals, dkeys. rewrite map_map. apply map_ext_in. intros [k o] H. now apply W.
Qed.

Lemma put_lwf key o s : lwf s -> o_code o = key -> lwf (put_obj key o s).
Proof.
  intros W E k x H. cbn [put_obj ln_objs ln_node set_ln_node n_objs] in H. apply (in_dset Z.eqb) in H.
  destruct H as [H|[H|(a & Ha & H)]]; [congruence|now apply W|]. injection H as -> ->. lia.
Qed.

Lemma update_profile_ok s p : ln_prof s = InTable -> lwf s -> NoDup (dkeys (ln_objs s)) ->
  zget NP (ln_objs s) = Some p -> profile_ok p ->
  exists p', update_profile s = (put_obj NP p' s, Ok true) /\ linv (put_obj NP p' s) /\
    dkeys (ln_objs (put_obj NP p' s)) = dkeys (ln_objs s).
Proof.
  intros I W N G P. unfold update_profile. rewrite I. change NODE_PROFILE_CODE with NP. rewrite G.
  fold (node_codes s). rewrite (lwf_codes s W).
  destruct (np_update_ok (dkeys (ln_objs s)) p P) as (p' & -> & P' & S & _). exists p'. split; [reflexivity|].
  assert (K : dkeys (ln_objs (put_obj NP p' s)) = dkeys (ln_objs s)).
  { cbn [put_obj ln_objs ln_node set_ln_node n_objs]. rewrite zkeys_zset. fold (ln_objs s). now rewrite G. }
  split; [|exact K]. split; [exact I|]. split; [apply put_lwf; [assumption|apply P']|]. split; [now rewrite K|].
  exists p'. split; [cbn [put_obj ln_objs ln_node set_ln_node n_objs]; apply zget_zset_same|]. split; [assumption|]. now rewrite K.
Qed.

Lemma add_object_ok s o : linv s -> o_code o <> NP ->
  exists s', local_add_object (Some o) s = (s', Ok true) /\ linv s' /\
    dkeys (ln_objs s') = dkeys (zset (o_code o) o (ln_objs s)) /\
    ln_addr s' = ln_addr s /\ ln_opts s' = ln_opts s /\ ln_mgr s' = ln_mgr s /\ ln_ctl s' = ln_ctl s.
Proof.
  intros (I & W & N & p & G & P & S) Hc. unfold local_add_object.
  replace (o_code o =? NODE_PROFILE_CODE) with false by (unfold NODE_PROFILE_CODE, NP in *; lia).
  cbn [node_add_object fst]. set (s1 := set_ln_node _ s).
  assert (E : ln_objs s1 = zset (o_code o) o (ln_objs s)) by reflexivity.
  destruct (update_profile_ok s1 p) as (p' & -> & L & K).
  - exact I.
  - intros k x H. rewrite E in H. apply (in_dset Z.eqb) in H.
    destruct H as [H|[H|(a & Ha & H)]]; [congruence|now apply W|]. injection H as -> ->. lia.
  - rewrite E. now apply znodup_zset.
  - rewrite E, zget_zset_other by congruence. exact G.
  - exact P.
  - eexists. split; [reflexivity|]. split; [exact L|]. split; [now rewrite K, E|]. repeat split.
Qed.

Lemma new_local_ok c r : exists s, new_local c r = (s, Ok tt) /\ linv s /\ dkeys (ln_objs s) = [NP] /\
  ln_addr s = None /\ ln_opts s = 1 /\ ln_mgr s = new_manager /\ ln_ctl s = if c then Some new_ctl else None.
Proof.
  unfold new_local. destruct (new_node_profile_ok r) as (p & -> & P & S).
  assert (C : o_code p = NP) by apply P. rewrite C. set (s := mkln _ _ _ _ _).
  destruct (update_profile_ok s p) as (p' & -> & L & K).
  - reflexivity.
  - intros k o [H|[]]. injection H as <- <-. exact C.
  - cbn. constructor; [intros []|constructor].
  - reflexivity.
  - exact P.
  - eexists. split; [reflexivity|]. split; [exact L|]. split; [exact K|]. repeat split.
Qed.

Lemma local_adds_ok ops : forall s, linv s -> no_profile ops ->
  linv (fst (local_adds ops s)) /\
  (forall x, In x (snd (local_adds ops s)) -> exists b, x = Ok b) /\
  dkeys (ln_objs (fst (local_adds ops s))) =
    fold_left (fun ks c => if existsb (Z.eqb c) ks then ks else ks ++ [c]) (added_codes ops) (dkeys (ln_objs s)) /\
  ln_addr (fst (local_adds ops s)) = ln_addr s /\ ln_opts (fst (local_adds ops s)) = ln_opts s /\
  ln_mgr (fst (local_adds ops s)) = ln_mgr s /\ ln_ctl (fst (local_adds ops s)) = ln_ctl s.
Proof.
  induction ops as [|o ops IH]; intros s L NPr; cbn [local_adds fst snd].
  - split; [assumption|]. split; [intros x []|]. repeat split.
  - destruct o as [o|].
    + destruct (add_object_ok s o L) as (s1 & E & L1 & K & F1 & F2 & F3 & F4); [apply NPr; now left|]. rewrite E.
      specialize (IH s1 L1). destruct (local_adds ops s1) as [s2 l]. cbn [fst snd] in *.
      destruct IH as (I1 & I2 & I3 & I4 & I5 & I6 & I7); [intros x Hx; apply NPr; now right|].
      split; [assumption|]. split; [intros x [<-|Hx]; eauto|]. split; [|repeat split; congruence].
      rewrite I3. unfold added_codes. cbn [flat_map app fold_left]. fold (added_codes ops). f_equal.
      rewrite K, zkeys_zset. destruct (existsb (Z.eqb (o_code o)) (dkeys (ln_objs s))) eqn:X.
      * apply existsb_exists in X. destruct X as (k & Hk & Ek). apply Z.eqb_eq in Ek. subst k.
        apply zget_some in Hk. destruct Hk as (v & ->). reflexivity.
      * destruct (zget (o_code o) (ln_objs s)) eqn:G; [|reflexivity]. exfalso.
        enough (true = false) by discriminate. rewrite <- X. symmetry. apply existsb_exists. exists (o_code o).
        split; [apply zget_some; eauto|lia].
    + cbn [local_add_object]. specialize (IH s L). destruct (local_adds ops s) as [s2 l]. cbn [fst snd] in *.
      destruct IH as (I1 & I2 & I3 & I4 & I5 & I6 & I7); [intros x Hx; apply NPr; now right|].
      split; [assumption|]. split; [intros x [<-|Hx]; eauto|]. repeat split; assumption.
Qed.

Lemma firsts_fold {A} eqb (H : forall a b : A, eqb a b = true <-> a = b) l : forall l0,
  fold_left (fun ks c => if existsb (eqb c) ks then ks else ks ++ [c]) l (firsts eqb l0) = firsts eqb (l0 ++ l).
Proof.
  induction l as [|x l IH]; intros l0; cbn [fold_left]; [now rewrite app_nil_r|].
  rewrite (existsb_firsts eqb H). replace (l0 ++ x :: l) with ((l0 ++ [x]) ++ l) by now rewrite <- app_assoc.
  rewrite <- IH, (firsts_snoc eqb H). destruct (existsb (eqb x) l0); reflexivity.
Qed.

Lemma node_after_adds c r ops s : new_local c r = (s, Ok tt) -> no_profile ops ->
  let s' := fst (local_adds ops s) in
  linv s' /\ node_codes s' = firsts Z.eqb (NP :: added_codes ops) /\
  device_codes (node_codes s') = device_codes (firsts Z.eqb (added_codes ops)) /\
  ln_mgr s' = new_manager /\ ln_ctl s' = (if c then Some new_ctl else None) /\ ln_opts s' = 1 /\ ln_addr s' = None.
Proof.
  intros E NPr s'. destruct (new_local_ok c r) as (s0 & E0 & L & K & F1 & F2 & F3 & F4).
  assert (s0 = s) by congruence. subst s0.
  destruct (local_adds_ok ops s L NPr) as (I1 & _ & I3 & I4 & I5 & I6 & I7). fold s' in I1, I3, I4, I5, I6, I7.
  assert (C : node_codes s' = firsts Z.eqb (NP :: added_codes ops)).
  { rewrite lwf_codes by apply I1. rewrite I3, K. exact (firsts_fold Z.eqb zeqb_eq (added_codes ops) [NP]). }
  split; [assumption|]. split; [exact C|]. split; [|repeat split; congruence].
  rewrite C. cbn [firsts device_codes filter]. change (negb (is_profile_code NP)) with false. cbn iota.
  unfold device_codes. induction (firsts Z.eqb (added_codes ops)) as [|x l IH]; [reflexivity|].
  cbn [filter]. destruct (Z.eqb_spec NP x) as [Ex|Nx]; cbn [negb].
  - subst x. change (negb (is_profile_code NP)) with false. cbn iota. exact IH.
  - cbn [filter]. destruct (negb (is_profile_code x)); [f_equal|]; exact IH.
Qed.

Lemma linv_data s c : linv s -> exists p, zget NP (ln_objs s) = Some p /\ profile_data c s = get_property_data c p /\
  profile_ok p /\ shows (node_codes s) p.
Proof.
  intros (I & W & N & p & G & P & S). exists p. split; [exact G|]. split; [|split; [exact P|now rewrite lwf_codes]].
  unfold profile_data, get_object. cbn [new_object set_code fst o_code]. change 0x0EF001 with NP. fold (ln_objs s). now rewrite G.
Qed.

End WithSet.

Lemma be1 n : be 1 n = [n mod 256].
Proof. cbn. now rewrite Z.div_1_r. Qed.

Lemma L_C35_instance_list_partial : forall (PS : PySet) c r s0 ops, new_local c r = (s0, Ok tt) -> no_profile ops ->
  let s := fst (local_adds ops s0) in
  let l := device_codes (node_codes s) in
  l = device_codes (firsts Z.eqb (added_codes ops)) /\
  (zlen l <= 255 -> profile_data 0xD5 s = Some (zlen l :: flat_map (be 3) l) /\
                    profile_data 0xD6 s = Some (zlen l :: flat_map (be 3) l)) /\
  profile_data 0xD3 s = Some (be 3 (zlen l)).
Proof.
  intros PS c r s0 ops E NPr s l. destruct (node_after_adds c r ops s0 E NPr) as (L & _ & D & _). fold s in L, D.
  split; [exact D|].
  destruct (linv_data s 0xD3 L) as (p & G & E3 & _ & S). destruct (linv_data s 0xD5 L) as (p5 & G5 & E5 & _).
  destruct (linv_data s 0xD6 L) as (p6 & G6 & E6 & _). 
  assert (p5 = p) by congruence. assert (p6 = p) by congruence. subst p5 p6.
  destruct S as (S3 & S5 & S6 & _). fold l in S3, S5, S6. rewrite E3, E5, E6, S3, S5, S6. 
  split; [|reflexivity]. intros B. rewrite be1, Z.mod_small; [split; reflexivity|]. unfold zlen in *. lia.
Qed.

(** n objects of one class with instance codes 1, 2, ... *)
Definition many (n : nat) : list (option obj) :=
  map (fun k => Some (new_object (PInt (0x029100 + Z.of_nat k)))) (seq 1 n).
Lemma many_codes n : added_codes (many n) = map (fun k => 0x029100 + Z.of_nat k) (seq 1 n).
Proof.
  unfold added_codes, many. induction (seq 1 n) as [|k l IH]; [reflexivity|]. cbn [map flat_map app]. now rewrite IH.
Qed.
Lemma firsts_id {A} eqb (H : forall a b : A, eqb a b = true <-> a = b) l : NoDup l -> firsts eqb l = l.
Proof.
  induction l as [|x l IH]; intros N; [reflexivity|]. inversion N as [|? ? Nx Nl]; subst. cbn [firsts]. rewrite (IH Nl).
  f_equal. clear IH N Nl. induction l as [|y l IH]; [reflexivity|]. cbn [filter].
  destruct (eqb x y) eqn:E; [apply H in E; subst; exfalso; apply Nx; now left|].
  cbn [negb]. f_equal. apply IH. intros X. apply Nx. now right.
Qed.
Lemma many_firsts n : firsts Z.eqb (added_codes (many n)) = added_codes (many n).
Proof.
  apply (firsts_id Z.eqb zeqb_eq). rewrite many_codes. apply FinFun.Injective_map_NoDup; [|apply seq_NoDup].
  intros a b H. lia.
Qed.
Lemma many_devices n : (n <= 300)%nat -> device_codes (added_codes (many n)) = added_codes (many n).
Proof.
  intros B. rewrite many_codes. unfold device_codes.
  assert (H : forall k, In k (seq 1 n) -> is_profile_code (0x029100 + Z.of_nat k) = false).
  { intros k Hk. apply in_seq in Hk. unfold is_profile_code.
    lia. }
  induction (seq 1 n) as [|k l IH]; [reflexivity|]. cbn [map filter]. rewrite H by now left. cbn [negb]. f_equal. apply IH.
  intros x Hx. apply H. now right.
Qed.
Lemma many_no_profile n : (n <= 300)%nat -> no_profile (many n).
Proof.
  intros B o H. unfold many in H. apply in_map_iff in H. destruct H as (k & E & Hk). injection E as <-.
  change (0x029100 + Z.of_nat k <> 0x0EF001). apply in_seq in Hk. lia.
Qed.

Lemma many_zlen n : zlen (added_codes (many n)) = Z.of_nat n.
Proof. rewrite many_codes. unfold zlen. now rewrite map_length, seq_length. Qed.

Lemma L_C35_instance_list_refuted : forall (PS : PySet) c r s0, new_local c r = (s0, Ok tt) ->
  exists ops, no_profile ops /\
  let s := fst (local_adds ops s0) in let l := device_codes (node_codes s) in
  zlen l = 256 /\ exists d, profile_data 0xD5 s = Some (0 :: d) /\ profile_data 0xD6 s = Some (0 :: d) /\ zlen d = 3 * 256.
Proof.
  intros PS c r s0 E. exists (many 256). assert (B : (256 <= 300)%nat) by lia.
  pose proof (many_no_profile 256 B) as NPr. split; [exact NPr|]. cbn zeta.
  destruct (node_after_adds c r (many 256) s0 E NPr) as (L & _ & D & _).
  set (s := fst (local_adds (many 256) s0)) in *. set (l := device_codes (node_codes s)) in *.
  rewrite many_firsts, (many_devices 256 B) in D.
  assert (Hl : zlen l = 256) by (rewrite D, many_zlen; reflexivity). split; [exact Hl|].
  exists (flat_map (be 3) l).
  destruct (linv_data s 0xD5 L) as (p5 & G5 & E5 & _ & S). destruct (linv_data s 0xD6 L) as (p6 & G6 & E6 & _). 
  assert (p6 = p5) by congruence. subst p6. destruct S as (_ & S5 & S6 & _). fold l in S5, S6. rewrite Hl in S5, S6.
  rewrite E5, E6, S5, S6. split; [reflexivity|]. split; [reflexivity|].
  rewrite <- Hl. clear. unfold zlen. induction l as [|x l IH]; [reflexivity|]. cbn [flat_map be app length] in *. lia.
Qed.

(** An added object with the profile's code takes the place of the node's profile, and is not kept up to date. *)
Lemma L_C35_profile_replaced_refuted : forall (PS : PySet) c r s0, new_local c r = (s0, Ok tt) ->
  exists ops, let s := fst (local_adds ops s0) in
    zlen (device_codes (node_codes s)) = 1 /\ profile_data 0xD5 s = None /\
    Forall (fun x => exists b, x = Ok b) (snd (local_adds ops s0)).
Proof.
  intros PS c r s0 E.
  exists [Some (new_object (PInt 0x0EF001)); Some (new_object (PInt 0x029101))].
  destruct (new_local_ok c r) as (s & E' & L & K & _). assert (s0 = s) by congruence. subst s0.
  pose proof L as (I & W & N & p & G & P & S).
  set (o1 := new_object (PInt 0x0EF001)). set (o2 := new_object (PInt 0x029101)).
  assert (Et : zset NP o1 (n_objs (ln_node s)) = [(NP, o1)]).
  { set (t := zset NP o1 _). assert (Kt : dkeys t = [NP]) by (unfold t; rewrite zkeys_zset; fold (ln_objs s); now rewrite G).
    assert (Gt : zget NP t = Some o1) by apply zget_zset_same.
    destruct t as [|[k v] [|]]; try discriminate Kt. cbn in Kt. injection Kt as ->. cbn [dget] in Gt.
    rewrite Z.eqb_refl in Gt. congruence. }
  assert (A1 : exists p1, profile_ok p1 /\ local_add_object (Some o1) s =
    (mkln (mknode (n_addr (ln_node s)) [(NP, o1)]) (Detached p1) (ln_opts s) (ln_mgr s) (ln_ctl s), Ok true)).
  { unfold local_add_object. change (o_code o1 =? NODE_PROFILE_CODE) with true. cbn iota. change NODE_PROFILE_CODE with NP.
    rewrite I, G. unfold update_profile. cbn [ln_prof set_ln_node set_ln_prof node_add_object fst ln_node ln_opts ln_mgr ln_ctl].
    change (o_code o1) with NP. rewrite Et.
    match goal with |- context [np_update_map ?l p] => destruct (np_update_ok l p P) as (p1 & -> & P1 & S1 & _) end.
    exists p1. split; [exact P1|]. reflexivity. }
  destruct A1 as (p1 & P1 & A1). set (s1 := mkln _ _ _ _ _) in A1.
  assert (A2 : exists p2, local_add_object (Some o2) s1 =
    (mkln (mknode (n_addr (ln_node s)) [(NP, o1); (o_code o2, o2)]) (Detached p2) (ln_opts s) (ln_mgr s) (ln_ctl s), Ok true)).
  { unfold local_add_object. change (o_code o2 =? NODE_PROFILE_CODE) with false. cbn iota.
    unfold update_profile, s1. cbn [ln_prof set_ln_node set_ln_prof node_add_object fst ln_node ln_opts ln_mgr ln_ctl].
    match goal with |- context [np_update_map ?l p1] => destruct (np_update_ok l p1 P1) as (p2 & -> & _) end.
    exists p2. reflexivity. }
  destruct A2 as (p2 & A2). unfold local_adds. rewrite A1, A2. cbn [fst snd].
  split; [reflexivity|]. split; [reflexivity|]. repeat constructor; eauto.
Qed.

(** ** C36 *)
Lemma L_C36_class_list_partial : forall (PS : PySet) c r s0 ops, new_local c r = (s0, Ok tt) -> no_profile ops ->
  let s := fst (local_adds ops s0) in
  let l := device_codes (node_codes s) in
  (exists n, profile_data 0xD7 s = Some (n :: class_bytes (classes l))) /\
  (NoDup (map class_pair (node_codes s)) -> 
     profile_data 0xD4 s = Some (be 2 (zlen (classes (node_codes s))))).
Proof.
  intros PS c r s0 ops E NPr s l. destruct (node_after_adds c r ops s0 E NPr) as (L & _). fold s in L.
  destruct (linv_data s 0xD4 L) as (p & G & E4 & _ & S). destruct (linv_data s 0xD7 L) as (p7 & G7 & E7 & _).
  assert (p7 = p) by congruence. subst p7. destruct S as (_ & _ & _ & S4 & S7). fold l in S7. rewrite E4, E7, S4, S7.
  split; [eexists; rewrite be1; reflexivity|]. intros N. unfold classes. rewrite (firsts_id pair_eqb pair_eqb_eq _ N).
  unfold zlen. now rewrite map_length.
Qed.

Lemma firsts_length {A} (eqb : A -> A -> bool) l : (length (firsts eqb l) <= length l)%nat.
Proof.
  assert (F : forall (f : A -> bool) l, (length (filter f l) <= length l)%nat).
  { intros f l0. induction l0 as [|x l0 IH]; [constructor|]. cbn [filter]. destruct (f x); cbn [length]; lia. }
  induction l as [|x l IH]; [constructor|]. cbn [firsts length]. specialize (F (fun y => negb (eqb x y)) (firsts eqb l)). lia.
Qed.

(** The count of the class list is wrong on every node with fewer than 256 objects. *)
Lemma L_C36_class_list_refuted : forall (PS : PySet) c r s0 ops, new_local c r = (s0, Ok tt) -> no_profile ops ->
  let s := fst (local_adds ops s0) in
  let l := device_codes (node_codes s) in
  zlen (node_codes s) <= 255 ->
  exists n d, profile_data 0xD7 s = Some (n :: d) /\ n = zlen (node_codes s) /\ zlen (classes l) < n.
Proof.
  intros PS c r s0 ops E NPr s l B. destruct (node_after_adds c r ops s0 E NPr) as (L & C & D & _). fold s in L, C, D.
  destruct (linv_data s 0xD7 L) as (p7 & G7 & E7 & _ & S). destruct S as (_ & _ & _ & _ & S7). fold l in S7.
  rewrite E7, S7, be1. eexists _, _. split; [reflexivity|]. split; [apply Z.mod_small; unfold zlen in *; lia|].
  rewrite Z.mod_small by (unfold zlen in *; lia).
  assert (H : (length (classes l) <= length l)%nat).
  { unfold classes. etransitivity; [apply firsts_length|]. now rewrite map_length. }
  assert (K : (length l < length (node_codes s))%nat).
  { unfold l, device_codes. rewrite C. cbn [firsts filter]. change (negb (is_profile_code NP)) with false. cbn iota. cbn [length].
    set (x := filter _ (firsts _ _)). clear. induction x as [|y x IH]; [cbn; lia|]. cbn [filter]. destruct (negb (is_profile_code y)); cbn [length]; lia. }
  unfold zlen. lia.
Qed.

(** ... and D4 counts a class once per object. *)
Lemma L_C36_class_count_refuted : forall (PS : PySet) c r s0, new_local c r = (s0, Ok tt) ->
  exists ops, no_profile ops /\ (let s := fst (local_adds ops s0) in
  zlen (classes (node_codes s)) = 2 /\ profile_data 0xD4 s = Some [0; 3]).
Proof.
  intros PS c r s0 E. exists (many 2). assert (B : (2 <= 300)%nat) by lia.
  pose proof (many_no_profile 2 B) as NPr. split; [exact NPr|]. cbn zeta.
  destruct (node_after_adds c r (many 2) s0 E NPr) as (L & C & _).
  set (s := fst (local_adds (many 2) s0)) in *.
  destruct (linv_data s 0xD4 L) as (p & G & E4 & _ & S). destruct S as (_ & _ & _ & S4 & _).
  rewrite E4, S4, C. split; reflexivity.
Qed.
