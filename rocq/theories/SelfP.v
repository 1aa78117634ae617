(** Lemmas for C75. *)
From Verif Require Import PyBase BytesM EsvM MsgM PropM ObjM DbData DbM NodeM LocalM CtrlM
  SpecWire SpecObj SpecMap SpecReq SpecDb SpecNode SpecProf SpecLocal SpecSrv SpecCtrl SpecEnd SpecNet SpecLife SpecSelf
  DictP BytesP WireP CodecP ObjP MapP ReqP DbP NodeP ProfP LocalP AnswerP SrvP CtrlP EndP NetP LifeP.
From Verif Require Import SpecReq.
Require Import ZifyBool.

(** The data a node draws and sets once. *)
Definition identity (r : np_random) (p : obj) : Prop :=
  get_property_data 0x80 p = Some [0x30] /\ get_property_data 0x82 p = Some [1; 0x0D; 1; 0] /\
  get_property_data 0x83 p = Some ([0xFE; 0; 0; 0] ++ rnd_id r).
Definition id_codes : list Z := [0x80; 0x82; 0x83].
Lemma id_table : forallb (fun c => match last_added c np_ps with Some p => op_set p =? 0 | None => false end) id_codes = true.
Proof. Transparent np_ps. vm_compute. reflexivity. Qed.
#[global] Opaque np_ps.
Lemma id_has p c : profile_ok p -> In c id_codes -> exists q, get_property c p = Some q /\ op_set q = 0.
Proof.
  intros ((_ & T) & _) H. specialize (T c). pose proof id_table as E. rewrite forallb_forall in E. specialize (E c H).
  unfold get_property. destruct (last_added c np_ps) as [r|]; [|discriminate]. destruct (zget c (o_props p)) as [q|]; [|contradiction].
  exists q. split; [reflexivity|]. destruct T as ((_ & _ & A & _) & _). lia.
Qed.
Lemma identity_same r p p' : (forall c, In c id_codes -> get_property c p' = get_property c p) -> identity r p -> identity r p'.
Proof.
  intros S. assert (D : forall c, In c id_codes -> get_property_data c p' = get_property_data c p).
  { intros c I. unfold get_property_data. change (zget c (o_props ?x)) with (get_property c x). now rewrite S. }
  unfold identity. rewrite !D by (cbn; tauto). auto.
Qed.
Lemma identity_step r p m : profile_ok p -> identity r p -> identity r (obj_step p m).
Proof.
  intros P. apply identity_same. intros c I. pose proof P as (_ & _ & _ & _ & H).
  destruct (builtin_step p m (or_introl H) (profile_wf p P)) as (l & _ & _ & G). rewrite G.
  destruct (id_has p c P I) as (q & -> & O). unfold may_write, can_write. rewrite H, O. reflexivity.
Qed.

Definition selfinv (r : np_random) (s : lnode) : Prop :=
  linv s /\ forall p, zget NP (ln_objs s) = Some p -> identity r p.
Lemma selfinv_same r s s' : ln_objs s' = ln_objs s -> ln_prof s' = ln_prof s -> selfinv r s -> selfinv r s'.
Proof. intros E P (L & I). split; [exact (linv_objs s s' E P L)|]. rewrite E. exact I. Qed.

(** ** Receiving *)
Lemma self_received (PS : PySet) r w tr s a m s' tr' x : received_from a m -> selfinv r s -> node_received w tr s m = (s', tr', x) ->
  selfinv r s' /\ dkeys (ln_objs s') = dkeys (ln_objs s).
Proof.
  intros Hm (L & I) H. destruct (linv_received PS w tr s a m s' tr' x Hm L H) as (L' & D & _). split; [|exact D]. split; [exact L'|].
  destruct L as (_ & _ & _ & p & Zp & P & _). intros p' Zp'.
  destruct (L_C30_addressed PS w tr s a m s' tr' x Hm H) as (evs & _ & O1 & _ & _ & _ & _ & _ & O2 & _).
  destruct (Z.eq_dec NP (m_DEOJ m)) as [E|E].
  - rewrite E in Zp, Zp'. destruct (O2 p Zp) as ([A|A] & _); rewrite A in Zp'; rewrite <- E in Zp.
    + apply I. congruence.
    + assert (p' = obj_step p m) by congruence. subst p'. apply identity_step; [exact P|]. exact (I p Zp).
  - rewrite (O1 NP E) in Zp'. exact (I p' Zp').
Qed.
Lemma self_notify (PS : PySet) r w a m l : received_from a m -> forall tr s s' tr' x, selfinv r s -> notify w tr s l m = (s', tr', x) ->
  selfinv r s' /\ dkeys (ln_objs s') = dkeys (ln_objs s).
Proof.
  intros Hm. induction l as [|o l IH]; intros tr s s' tr' x I H; cbn [notify] in H; [injection H as <- <- <-; auto|].
  destruct (tell w tr s o m) as [[s1 tr1] r1] eqn:T.
  assert (A : selfinv r s1 /\ dkeys (ln_objs s1) = dkeys (ln_objs s)).
  { destruct o as [|n|]; cbn [tell] in T.
    - exact (self_received PS r w tr s a m s1 tr1 r1 Hm I T).
    - unfold call in T. injection T as <- _ _. auto.
    - injection T as <- _ _. auto. }
  destruct A as (I1 & D1). destruct r1 as [u|e]; [|injection H as <- _ _; auto].
  destruct (IH _ _ _ _ _ I1 H) as (I2 & D2). split; [exact I2|congruence].
Qed.
Lemma self_kill r j s : selfinv r s -> selfinv r (kill j s) /\ dkeys (ln_objs (kill j s)) = dkeys (ln_objs s).
Proof. intros I. unfold kill. destruct (nth_error _ _); [|auto]. split; [|reflexivity]. now apply (selfinv_same r s). Qed.
Lemma self_deliver (PS : PySet) r w tr s j d s' tr' : bytes_ok (fst d) -> selfinv r s -> deliver w tr s j d = (s', tr') ->
  selfinv r s' /\ dkeys (ln_objs s') = dkeys (ln_objs s).
Proof.
  intros B I H. unfold deliver in H.
  destruct (nth_error (g_servers (ln_mgr s)) j) as [v|]; [|injection H as <- _; auto].
  destruct (negb (s_alive v)); [injection H as <- _; auto|].
  destruct (parse_bytes new_msg (firstn RECV_SIZE (fst d))) as [f [[]|e]] eqn:P; [|injection H as <- _; auto|injection H as <- _; now apply self_kill].
  assert (B2 : bytes_ok (firstn RECV_SIZE (fst d))) by (unfold bytes_ok in *; rewrite <- (firstn_skipn RECV_SIZE (fst d)) in B; apply Forall_app in B as (B & _); exact B).
  destruct (parsed_received _ _ (snd d) B2 P) as (Hm & _).
  destruct (to_string (set_from (Some (snd d)) f)) as [t|e]; [|injection H as <- _; now apply self_kill].
  destruct (notify w tr s (s_obs v) (set_from (Some (snd d)) f)) as [[s1 tr1] r1] eqn:No.
  destruct (self_notify PS r w _ _ (s_obs v) Hm tr s s1 tr1 r1 I No) as (I1 & D1).
  destruct r1 as [u|e]; injection H as <- _; [auto|]. destruct (self_kill r j s1 I1) as (I2 & D2). split; [exact I2|congruence].
Qed.

(** ** Adding objects *)
Definition add_key_z (ks : list Z) (c : Z) : list Z := if existsb (Z.eqb c) ks then ks else ks ++ [c].
Lemma self_update (PS : PySet) r s p : ln_prof s = InTable -> lwf s -> NoDup (dkeys (ln_objs s)) -> zget NP (ln_objs s) = Some p -> profile_ok p -> identity r p ->
  exists s', update_profile s = (s', Ok true) /\ selfinv r s' /\ dkeys (ln_objs s') = dkeys (ln_objs s).
Proof.
  intros Pt W N G P I. destruct (update_profile_ok s p Pt W N G P) as (p' & E & L & K). exists (put_obj NP p' s). split; [exact E|]. split; [|exact K].
  split; [exact L|]. intros q Zq. rewrite zget_put in Zq. rewrite Z.eqb_refl in Zq. assert (q = p') by congruence. subst q.
  unfold update_profile in E. rewrite Pt in E. change NODE_PROFILE_CODE with NP in E. rewrite G in E.
  destruct (np_update_ok (map o_code (node_objects (ln_node s))) p P) as (p2 & E2 & _ & _ & S). rewrite E2 in E.
  assert (Ep : p2 = p').
  { assert (X : ln_objs (put_obj NP p2 s) = ln_objs (put_obj NP p' s)) by congruence. assert (Y : zget NP (ln_objs (put_obj NP p2 s)) = zget NP (ln_objs (put_obj NP p' s))) by now rewrite X.
    rewrite !zget_put, !Z.eqb_refl in Y. congruence. }
  subst p2. apply (identity_same r p); [|exact I]. intros c Hc. apply S. cbn [np_codes id_codes In] in *. lia.
Qed.
Lemma self_add (PS : PySet) r s o : selfinv r s -> o_code o <> NP ->
  exists s', local_add_object (Some o) s = (s', Ok true) /\ selfinv r s' /\ dkeys (ln_objs s') = add_key_z (dkeys (ln_objs s)) (o_code o).
Proof.
  intros ((Pt & W & N & p & G & P & S) & I) Hc. unfold local_add_object.
  replace (o_code o =? NODE_PROFILE_CODE) with false by (unfold NODE_PROFILE_CODE, NP in *; lia).
  cbn [node_add_object fst]. set (s1 := set_ln_node _ s).
  assert (E : ln_objs s1 = zset (o_code o) o (ln_objs s)) by reflexivity.
  destruct (self_update PS r s1 p) as (s' & -> & J & K).
  - exact Pt.
  - intros k x H. rewrite E in H. apply (in_dset Z.eqb) in H.
    destruct H as [H|[H|(a & Ha & H)]]; [congruence|now apply W|]. injection H as -> ->. lia.
  - rewrite E. now apply znodup_zset.
  - rewrite E, zget_zset_other by congruence. exact G.
  - exact P.
  - exact (I p G).
  - exists s'. split; [reflexivity|]. split; [exact J|]. rewrite K, E, zkeys_zset. unfold add_key_z.
    destruct (zget (o_code o) (ln_objs s)) eqn:Z.
    + replace (existsb (Z.eqb (o_code o)) (dkeys (ln_objs s))) with true; [reflexivity|]. symmetry. apply existsb_exists. exists (o_code o). split; [|apply Z.eqb_refl].
      apply (dget_some Z.eqb zeqb_eq). eauto.
    + replace (existsb (Z.eqb (o_code o)) (dkeys (ln_objs s))) with false; [reflexivity|]. symmetry. apply not_true_iff_false. intros X.
      apply existsb_exists in X. destruct X as (k & Ik & Ek). apply Z.eqb_eq in Ek. subst k. now apply (dget_none Z.eqb zeqb_eq) in Z.
Qed.
Lemma id_initial r q0 : profile_ok q0 -> identity r (np_update_initial r q0).
Proof.
  intros Q0. assert (H : forall k, In k id_codes -> exists d, get_property_data k q0 = Some d).
  { intros k Hk. destruct (id_has q0 k Q0 Hk) as (q & G & _). exists (op_data q). unfold get_property_data. change (zget k (o_props q0)) with (get_property k q0). now rewrite G. }
  destruct (H 0x80) as (d0 & E0); [cbn; tauto|]. destruct (H 0x82) as (d2 & E2); [cbn; tauto|]. destruct (H 0x83) as (d3 & E3); [cbn; tauto|].
  unfold identity, np_update_initial, stmt_data. rewrite !get_data_set, E0, E2, E3. 
  split; [reflexivity|]. split; reflexivity.
Qed.
Lemma ok_initial r q0 : profile_ok q0 -> profile_ok (np_update_initial r q0).
Proof. intros Q0. unfold np_update_initial, stmt_data. repeat apply profile_ok_data. exact Q0. Qed.
Lemma ok_handler p0 : profile_ok p0 -> profile_ok (set_request_handler HSuper p0).
Proof. intros (T & R & M & C & H). split; [exact T|]. split; [exact R|]. split; [exact M|]. split; [exact C|reflexivity]. Qed.
Lemma id_map (PS : PySet) r codes q1 p x : profile_ok q1 -> identity r q1 -> np_update_map codes q1 = (p, x) -> identity r p.
Proof.
  intros P1 I1 E. destruct (np_update_ok codes q1 P1) as (p2 & E2 & _ & _ & S). assert (p2 = p) by congruence. subst p2.
  apply (identity_same r q1); [|exact I1]. intros k Hk. apply S. intros J. cbn [np_codes id_codes In] in J, Hk. lia.
Qed.
Lemma obind_inv {A B} (x : obj * res A) (f : obj -> A -> obj * res B) y : obind x f = y -> (exists o a, x = (o, Ok a) /\ f o a = y) \/ (exists o e, x = (o, Err e) /\ (o, Err e) = y).
Proof. destruct x as [o [a|e]]; cbn [obind]; [left|right]; eauto. Qed.
Lemma prof_inv0 (PS : PySet) r p : new_node_profile r = p -> obind (new_profile (PInt NODE_PROFILE_CODE)) (fun o _ =>
  obind (np_update_map [o_code (np_update_initial r (set_request_handler HSuper o))] (np_update_initial r (set_request_handler HSuper o))) (fun o _ => (o, Ok tt))) = p.
Proof. intros <-. unfold new_node_profile. reflexivity. Qed.
Lemma prof_inv (PS : PySet) r p : new_node_profile r = (p, Ok tt) -> exists p0 u b, new_profile (PInt NODE_PROFILE_CODE) = (p0, Ok u) /\
  np_update_map [o_code (np_update_initial r (set_request_handler HSuper p0))] (np_update_initial r (set_request_handler HSuper p0)) = (p, Ok b).
Proof.
  intros En. apply prof_inv0 in En. revert En. generalize (new_profile (PInt NODE_PROFILE_CODE)). intros x En.
  destruct (obind_inv _ _ _ En) as [(p0 & u & E & F)|(p0 & e & _ & F)]; [|discriminate]. exists p0, u.
  destruct (obind_inv _ _ _ F) as [(p1 & b & E2 & F2)|(p1 & e & _ & F2)]; [|discriminate]. exists b. split; [exact E|].
  replace p with p1 by congruence. exact E2.
Qed.
Lemma self_profile (PS : PySet) r p : new_node_profile r = (p, Ok tt) -> identity r p.
Proof.
  intros En. destruct (prof_inv PS r p En) as (p0 & u & b & E1 & E2). clear En. 
  assert (P0 : profile_ok p0).
  { destruct new_profile_np as (q & Eq & Q). rewrite E1 in Eq. replace p0 with q by congruence. exact Q. }
  exact (id_map PS r _ _ _ _ (ok_initial r _ (ok_handler p0 P0)) (id_initial r _ (ok_handler p0 P0)) E2).
Qed.
Lemma local_inv (PS : PySet) c r x : new_local c r = x -> match new_node_profile r with
  | (o, Err e) => (mkln (new_node None) (Detached o) 0 new_manager None, Err e)
  | (o, Ok _) =>
      match update_profile (mkln (mknode None [(o_code o, o)]) InTable IGNORE_SELF_MESSAGE new_manager (if c then Some new_ctl else None)) with
      | (s', Err e) => (s', Err e)
      | (s', Ok _) => (s', Ok tt)
      end
  end = x.
Proof. intros <-. unfold new_local. reflexivity. Qed.
Lemma local_inv2 (PS : PySet) c r s : new_local c r = (s, Ok tt) -> exists o b, new_node_profile r = (o, Ok tt) /\
  update_profile (mkln (mknode None [(o_code o, o)]) InTable IGNORE_SELF_MESSAGE new_manager (if c then Some new_ctl else None)) = (s, Ok b).
Proof.
  intros E. apply local_inv in E. revert E. generalize (new_node_profile r). intros [o [[]|e]] E; [|discriminate]. exists o. revert E.
  generalize (update_profile (mkln (mknode None [(o_code o, o)]) InTable IGNORE_SELF_MESSAGE new_manager (if c then Some new_ctl else None))).
  intros [s1 [b|e]] E; [|discriminate]. exists b. split; [reflexivity|]. congruence.
Qed.
Lemma self_new (PS : PySet) c r s : new_local c r = (s, Ok tt) -> selfinv r s /\ dkeys (ln_objs s) = [NP].
Proof.
  intros E. destruct (new_local_ok c r) as (s0 & E0 & L & K & _). rewrite E in E0. assert (s0 = s) by congruence. subst s0. split; [|exact K]. clear E0 L K.
  destruct (local_inv2 PS c r s E) as (p & b & En & Eu). pose proof (self_profile PS r p En) as Id.
  assert (P : profile_ok p). { destruct (new_node_profile_ok r) as (q & Eq & Q & _). rewrite En in Eq. replace p with q by congruence. exact Q. }
  clear En E. assert (C : o_code p = NP) by apply P. rewrite C in Eu.
  remember (mkln (mknode None [(NP, p)]) InTable IGNORE_SELF_MESSAGE new_manager (if c then Some new_ctl else None)) as s1 eqn:Es.
  destruct (self_update PS r s1 p) as (s' & E1 & J & _).
  - now rewrite Es.
  - rewrite Es. intros k o [H|[]]. injection H as <- <-. exact C.
  - rewrite Es. cbn. constructor; [intros []|constructor].
  - now rewrite Es.
  - exact P.
  - exact Id.
  - rewrite E1 in Eu. assert (s' = s) by congruence. subst s'. exact J.
Qed.

(** ** A step *)
Definition alike (s s' : lnode) : Prop := ln_objs s' = ln_objs s /\ ln_prof s' = ln_prof s.
Lemma alike_trans s1 s2 s3 : alike s1 s2 -> alike s2 s3 -> alike s1 s3.
Proof. intros (A & B) (C & D). split; congruence. Qed.
Lemma start_alike w tr s l : alike s (fst (fst (local_start w tr s l))).
Proof. destruct (local_start w tr s l) as [[s' tr'] r] eqn:E. destruct (start_keeps _ _ _ _ _ _ _ E) as (A & B & _). split; assumption. Qed.
Lemma send_alike w tr s m a : alike s (fst (fst (fst (local_send w tr s m a)))).
Proof. unfold local_send. destruct (mgr_send _ _ _ _ _) as [[[g t] m'] r]. split; reflexivity. Qed.
Lemma announce_alike w tr s m : alike s (fst (fst (fst (local_announce w tr s m)))).
Proof. unfold local_announce. destruct (mgr_announce _ _ _ _) as [[[g t] m'] r]. split; reflexivity. Qed.
Lemma search_alike w tr s : alike s (fst (fst (ctl_search w tr s))).
Proof. unfold ctl_search. pose proof (announce_alike w tr s search_message) as A. destruct (local_announce w tr s search_message) as [[[s1 t] m'] r]. exact A. Qed.
Lemma post_alike w tr s m d : alike s (fst (fst (fst (post_begin w tr s m d)))).
Proof.
  unfold post_begin. destruct (ln_ctl s); [|split; reflexivity]. unfold ctl_send. pose proof (send_alike w tr s m (dest_addr d)) as A.
  destruct (local_send w tr s m (dest_addr d)) as [[[s1 t] m'] r]. exact A.
Qed.
Lemma step_alike (PS : PySet) w s tr a : match a with AAdd _ | AObjs _ | ARecv _ _ => True | _ => alike s (fst (act_step w (s, tr) a)) end.
Proof.
  destruct a as [l| |o|o|opt v|l|m a|m|j d| | |m d|m d|n o esv l|n o esv l|c]; cbn [act_step]; try exact I.
  - apply start_alike.
  - unfold local_stop. destruct (mgr_stop _ _) as [[g t] b]. split; reflexivity.
  - split; reflexivity.
  - split; reflexivity.
  - apply send_alike.
  - apply announce_alike.
  - unfold ctl_start. pose proof (start_alike w tr s []) as A. destruct (local_start w tr s []) as [[s1 t1] r1]. cbn [fst] in A.
    destruct r1 as [[]|]; [|exact A..]. exact (alike_trans _ _ _ A (search_alike w t1 s1)).
  - apply search_alike.
  - unfold ctl_send. apply send_alike.
  - apply post_alike.
  - unfold object_send. destruct (create_message (o_code o) esv l) as [m|]; [|split; reflexivity]. unfold ctl_send. pose proof (send_alike w tr s m (dest_addr (DNode n))) as A.
    destruct (local_send w tr s m (dest_addr (DNode n))) as [[[s1 t] m'] r]. exact A.
  - unfold object_post. destruct (create_message (o_code o) esv l) as [m|]; [|split; reflexivity]. pose proof (post_alike w tr s m (DNode n)) as A. destruct (post_begin w tr s m (DNode n)) as [[[s1 t1] m1] r1]. exact A.
  - cbn [fst]. destruct (ln_ctl s); split; reflexivity.
Qed.
Lemma self_step (PS : PySet) r w s tr a s' tr' : gentle a -> act_step w (s, tr) a = (s', tr') -> selfinv r s ->
  selfinv r s' /\ dkeys (ln_objs s') = match a with AAdd (Some o) => add_key_z (dkeys (ln_objs s)) (o_code o) | _ => dkeys (ln_objs s) end.
Proof.
  intros Ga H I. pose proof (step_alike PS w s tr a) as A. rewrite H in A. cbn [fst] in A.
  assert (Z : alike s s' -> selfinv r s' /\ dkeys (ln_objs s') = dkeys (ln_objs s)).
  { intros (E & P). split; [exact (selfinv_same r s s' E P I)|now rewrite E]. }
  destruct a as [l| |[o|]|o|opt v|l|m a|m|j d| | |m d|m d|n o esv l|n o esv l|c]; cbn [gentle] in Ga; try exact (Z A); try contradiction.
  - cbn [act_step] in H. destruct (self_add PS r s o I Ga) as (s1 & E & J & K). rewrite E in H. cbn [fst] in H. assert (s1 = s') by congruence. subst s1. auto.
  - cbn [act_step] in H. apply Z. cbn [local_add_object fst] in H. assert (s = s') by congruence. subst s'. split; reflexivity.
  - cbn [act_step] in H. exact (self_deliver PS r w tr s j d s' tr' Ga I H).
Qed.
Lemma self_turns (PS : PySet) r w x l y : turns w x l y -> selfinv r (fst x) -> dkeys (ln_objs (fst x)) = [NP] ->
  selfinv r (fst y) /\ dkeys (ln_objs (fst y)) = firsts Z.eqb (NP :: l).
Proof.
  intros T I K. induction T as [x|x l [s tr] a T IH Ga|x l s tr objs T IH U].
  - split; [exact I|exact K].
  - destruct (IH I K) as (I1 & K1). destruct (act_step w (s, tr) a) as [s' tr'] eqn:E. cbn [fst] in *.
    destruct (self_step PS r w s tr a s' tr' Ga E I1) as (I2 & K2). split; [exact I2|]. rewrite K2.
    destruct a as [l0| |[o|]|o|opt v|l0|m a|m|j d| | |m d|m d|n o esv l0|n o esv l0|c]; rewrite ?app_nil_r, ?K1; try reflexivity.
    change (NP :: l ++ [o_code o]) with ((NP :: l) ++ [o_code o]). rewrite (firsts_snoc Z.eqb zeqb_eq). unfold add_key_z.
    replace (existsb (Z.eqb (o_code o)) (firsts Z.eqb (NP :: l))) with (existsb (Z.eqb (o_code o)) (NP :: l)); [reflexivity|].
    apply eq_iff_eq_true. rewrite !existsb_exists. split; intros (k & Ik & Ek); exists k; (split; [|exact Ek]); apply (firsts_in Z.eqb zeqb_eq); exact Ik.
  - destruct (IH I K) as (((Pt & W & N & p & G & P & S) & Id) & K1). destruct U as (U1 & U2 & U3). cbn [fst] in *.
    set (s' := set_ln_node _ s). assert (E : ln_objs s' = objs) by reflexivity. 
    split; [|rewrite E, U1; exact K1]. split.
    + split; [exact Pt|]. split; [intros k o H; rewrite E in H; exact (U3 k o H)|]. rewrite E, U1. split; [exact N|]. exists p. split; [|auto]. 
      change NP with 0x0EF001 in *. congruence.
    + intros q Zq. rewrite E in Zq. change NP with 0x0EF001 in *. apply Id. congruence.
Qed.

Lemma L_C75_self : forall (PS : PySet) c r s0 w l s tr, new_local c r = (s0, Ok tt) -> turns w (s0, []) l (s, tr) ->
  let devices := device_codes (firsts Z.eqb l) in
  (* the objects *)
  node_codes s = firsts Z.eqb (0x0EF001 :: l) /\
  (* operating status, version and identification *)
  profile_data 0x80 s = Some [0x30] /\
  profile_data 0x82 s = Some [1; 0x0D; 1; 0] /\
  profile_data 0x83 s = Some ([0xFE; 0; 0; 0] ++ rnd_id r) /\
  (* the number of devices, and the devices *)
  profile_data 0xD3 s = Some (be 3 (zlen devices)) /\
  (zlen devices <= 255 -> profile_data 0xD5 s = Some (zlen devices :: flat_map (be 3) devices) /\
                          profile_data 0xD6 s = Some (zlen devices :: flat_map (be 3) devices)) /\
  (* the classes of the devices *)
  exists n, profile_data 0xD7 s = Some (n :: class_bytes (classes devices)).
Proof.
  intros PS c r s0 w l s tr E T devices. destruct (self_new PS c r s0 E) as (I0 & K0). destruct (self_turns PS r w _ _ _ T I0 K0) as (I & K). cbn [fst] in *.
  pose proof I as (L & Id). pose proof L as (_ & W & _ & p & G & P & S). pose proof (lwf_codes s W) as C. rewrite K in *.
  assert (Dv : device_codes (firsts Z.eqb (NP :: l)) = devices).
  { unfold devices. cbn [firsts]. unfold device_codes at 1. cbn [filter is_profile_code]. change (negb (is_profile_code NP)) with false. cbn iota.
    fold (device_codes (filter (fun b => negb (NP =? b)) (firsts Z.eqb l))). induction (firsts Z.eqb l) as [|k t IH]; [reflexivity|]. cbn [filter].
    destruct (Z.eqb_spec NP k) as [<-|Hk]; cbn [negb]; unfold device_codes in *; cbn [filter]; [exact IH|].
    destruct (negb (is_profile_code k)); [now f_equal|exact IH]. }
  assert (D : forall k, profile_data k s = get_property_data k p).
  { intros k. destruct (linv_data s k L) as (q & Gq & Eq & _). rewrite Eq. assert (q = p) by congruence. now subst q. }
  destruct (Id p G) as (I1 & I2 & I3). destruct S as (S3 & S5 & S6 & S4 & S7). rewrite Dv in *. rewrite !D.
  split; [exact C|]. split; [exact I1|]. split; [exact I2|]. split; [exact I3|]. split; [exact S3|].
  split; [|eexists; rewrite S7, be1; reflexivity].
  intros B. rewrite S5, S6, be1, Z.mod_small by (unfold zlen in *; lia). split; reflexivity.
Qed.
