(** Proofs of the exact outcomes of C36, C44, C50, C61 and C62. *)
From Verif Require Import PyBase BytesM EsvM MsgM PropM ObjM DbData DbM NodeM LocalM CtrlM
  SpecWire SpecObj SpecMap SpecReq SpecDb SpecNode SpecProf SpecLocal SpecSrv SpecCtrl SpecEnd SpecNet SpecLife SpecSelf
  DictP BytesP WireP CodecP ObjP MapP ReqP DbP NodeP ProfP LocalP AnswerP SrvP CtrlP EndP NetP LifeP SelfP SpecOutc.
From Verif Require Import SpecReq.
Require Import ZifyBool.

(** ** C36 *)
Lemma L_C36_exact : forall (PS : PySet) c r s0 w l s tr, new_local c r = (s0, Ok tt) -> turns w (s0, []) l (s, tr) ->
  let objects := firsts Z.eqb (0x0EF001 :: l) in
  let devices := device_codes (firsts Z.eqb l) in
  profile_data 0xD4 s = Some (be 2 (zlen objects)) /\
  profile_data 0xD7 s = Some (zlen objects mod 256 :: class_bytes (classes devices)) /\
  profile_data 0xD5 s = Some (zlen devices mod 256 :: flat_map (be 3) devices) /\
  profile_data 0xD6 s = Some (zlen devices mod 256 :: flat_map (be 3) devices).
Proof.
  intros PS c r s0 w l s tr E T objects devices. destruct (self_new PS c r s0 E) as (I0 & K0). destruct (self_turns PS r w _ _ _ T I0 K0) as (I & K). cbn [fst] in *.
  pose proof I as (L & Id). pose proof L as (_ & W & _ & p & G & P & S). pose proof (lwf_codes s W) as C. rewrite K in *.
  assert (Dv : device_codes (firsts Z.eqb (NP :: l)) = devices).
  { unfold devices. cbn [firsts]. unfold device_codes at 1. cbn [filter is_profile_code]. change (negb (is_profile_code NP)) with false. cbn iota.
    fold (device_codes (filter (fun b => negb (NP =? b)) (firsts Z.eqb l))). induction (firsts Z.eqb l) as [|k t IH]; [reflexivity|]. cbn [filter].
    destruct (Z.eqb_spec NP k) as [<-|Hk]; cbn [negb]; unfold device_codes in *; cbn [filter]; [exact IH|].
    destruct (negb (is_profile_code k)); [now f_equal|exact IH]. }
  assert (D : forall k, profile_data k s = get_property_data k p).
  { intros k. destruct (linv_data s k L) as (q & Gq & Eq & _). rewrite Eq. assert (q = p) by congruence. now subst q. }
  destruct S as (S3 & S5 & S6 & S4 & S7). rewrite Dv in *. rewrite !D, S4, S7, S5, S6, !be1. repeat split.
Qed.

(** ** C44 *)
Lemma start_loop_raises w l : forall tr g g' tr' e, mgr_start_loop w tr g l = (g', tr', Err e) ->
  exists done i rest uni tr1, l = done ++ i :: rest /\ os_bind w tr1 uni i = Err e /\ tr' = tr1 ++ [EvBind uni i (Err e)] /\
    g_servers g' = g_servers g ++ left_behind done i uni.
Proof.
  induction l as [|j l IH]; intros tr g g' tr' e; cbn [mgr_start_loop]; [discriminate|].
  destruct (start_one w tr g true j) as [(x & B & ->)|(x & B & ->)].
  2:{ intros [= <- <- <-]. exists [], j, l, true, tr. rewrite app_nil_r. repeat split; assumption. }
  set (g1 := set_servers _ g). set (tr1 := tr ++ _).
  destruct (start_one w tr1 g1 false j) as [(y & B' & ->)|(y & B' & ->)].
  2:{ intros [= <- <- <-]. exists [], j, l, false, tr1. repeat split; assumption. }
  intros H. destruct (IH _ _ _ _ _ H) as (done & i & rest & uni & tr2 & -> & B2 & E & S).
  exists (j :: done), i, rest, uni, tr2. split; [reflexivity|]. split; [exact B2|]. split; [exact E|]. rewrite S. unfold g1, left_behind.
  cbn [set_servers g_servers flat_map app]. rewrite <- !app_assoc. reflexivity.
Qed.
Lemma L_C44_raised : forall w tr s l s' tr' e, local_start w tr s l = (s', tr', Err e) ->
  let ifs := non_loopback (reported (os_netif w (snd (fst (local_stop tr s))))) in
  exists done i rest uni tr1, ifs = done ++ i :: rest /\ os_bind w tr1 uni i = Err e /\ tr' = tr1 ++ [EvBind uni i (Err e)] /\
    g_servers (ln_mgr s') = left_behind done i uni /\ ln_node s' = ln_node s.
Proof.
  intros w tr s l s' tr' e H ifs. unfold local_start, mgr_start in H. unfold ifs, local_stop.
  destruct (mgr_stop tr (ln_mgr s)) as [[g0 tr0] b] eqn:E0. cbn [fst snd].
  assert (N : g_servers g0 = []) by (unfold mgr_stop in E0; injection E0 as <- _ _; reflexivity).
  change (zlen [] <=? 0) with true in H. cbn iota in H. rewrite ipaddrs_spec in H.
  destruct (mgr_start_loop w tr0 g0 _) as [[g1 tr1] [[]|e1]] eqn:L.
  - destruct (_ <=? 0); discriminate.
  - discriminate.
  - injection H as <- <- <-. destruct (start_loop_raises _ _ _ _ _ _ _ L) as (done & i & rest & uni & tr2 & A & B & C & S).
    exists done, i, rest, uni, tr2. rewrite N in S. repeat split; assumption.
Qed.
Lemma L_C44_starts : forall w tr s l s' tr' r, free_ports w -> local_start w tr s l = (s', tr', r) ->
  (r = Ok true <-> non_loopback (reported (os_netif w (snd (fst (local_stop tr s))))) <> []) /\ (r = Ok true \/ r = Ok false).
Proof.
  intros w tr s l s' tr' r F H. destruct (local_start_shape _ _ _ _ _ _ _ H) as [(-> & A & _)|[(-> & A & _)|(e & ->)]].
  - tauto.
  - split; [|now right]. split; [discriminate|contradiction].
  - destruct (L_C44_raised _ _ _ _ _ _ _ H) as (d & i & rest & u & tr1 & _ & B & _). rewrite F in B. discriminate.
Qed.

(** ** C62, C50 *)
Lemma knows_iff s m : names_unknown s m = false <-> knows_gets s m.
Proof.
  unfold names_unknown, knows_gets. destruct (Z.eqb_spec (m_ESV m) 0x6E) as [E|E]; cbn [andb]; [|tauto].
  destruct (zget (m_DEOJ m) (ln_objs s)) as [o|]; [|split; [discriminate|reflexivity]].
  rewrite negb_false_iff, forallb_forall. split; [intros H _ o1 [= <-]; exact H|intros H; exact (H E o eq_refl)].
Qed.
Lemma unknown_step (PS : PySet) w tr s a m s' tr' r : quiet w -> fitting_node s -> received_from a m -> names_unknown s m = true ->
  node_received w tr s m = (s', tr', r) ->
  r = Err AttributeError /\ fitting_node s' /\ ln_ctl s' = ln_ctl s /\ sent (since tr tr') = [] /\
  exists o o', zget (m_DEOJ m) (ln_objs s) = Some o /\ zget (m_DEOJ m) (ln_objs s') = Some o' /\ written o (m_sets m) o' /\
    forall k, k <> m_DEOJ m -> zget k (ln_objs s') = zget k (ln_objs s).
Proof.
  intros Q Ft Hm U H. unfold names_unknown in U. apply andb_prop in U. destruct U as (I & U). apply Z.eqb_eq in I.
  destruct (zget (m_DEOJ m) (ln_objs s)) as [o|] eqn:Z; [|discriminate]. apply negb_true_iff in U.
  destruct (received_props a m Hm) as (P & _ & _ & _ & _ & _ & F2 & _). pose proof (Ft _ _ Z) as Fo. pose proof Fo as (B & Wf & _).
  destruct (L_C22_write_read_partial o m B Wf P I) as (o' & W & O). rewrite U in O.
  assert (RQ : is_request (m_ESV m) = true) by (rewrite I; reflexivity).
  destruct (node_sends PS w tr s a m s' tr' r Hm H) as (evs & E & _ & SS & _ & A2).
  specialize (A2 Q (or_intror RQ)). rewrite Z, O in A2.
  destruct (L_C30_addressed PS w tr s a m s' tr' r Hm H) as (evs2 & _ & O1 & _ & _ & _ & _ & _ & O2 & _ & _).
  assert (RI : In (m_ESV m) [0x60; 0x61; 0x62; 0x63; 0x6E; 0x74]) by (apply L_C10_esv_classification; exact RQ).
  destruct (O2 o Z) as (_ & O4). destruct (O4 Q (or_intror RI)) as (Z' & _).
  assert (OS : obj_step o m = o') by (unfold obj_step; rewrite O; reflexivity). rewrite OS in Z'.
  split; [exact A2|]. split; [|split; [|split]].
  - intros k o1 Z1. destruct (Z.eq_dec k (m_DEOJ m)) as [Ek|Ek]; [subst k; rewrite Z' in Z1; injection Z1 as <-; exact (written_fitting _ _ _ W F2 Fo)|].
    rewrite (O1 k Ek) in Z1. exact (Ft _ _ Z1).
  - destruct (ln_ctl s) as [c|] eqn:C.
    + pose proof (ctl_node_received PS w tr s c a m s' tr' r C Hm H) as C'. rewrite RQ in C'. exact C'.
    + unfold node_received in H. rewrite C in H. pose proof (local_keeps_ctl w tr s m) as L. rewrite H in L. cbn in L. congruence.
  - rewrite E. unfold since. rewrite skipn_app, skipn_all, Nat.sub_diag. cbn [app skipn].
    destruct SS as [SS|(o1 & o2 & told & rsp & b & Z1 & O' & _)]; [exact SS|]. exfalso. rewrite Z in Z1. injection Z1 as <-. rewrite O in O'. discriminate.
  - exists o, o'. split; [reflexivity|]. split; [exact Z'|]. split; [exact W|exact O1].
Qed.

Lemma exact_step (PS : PySet) w tr s a m s' tr' r : quiet w -> no_raise w -> ln_ctl s = None -> fitting_node s -> received_from a m ->
  node_received w tr s m = (s', tr', r) ->
  r = outcome s m /\ fitting_node s' /\ ln_ctl s' = None /\
  (forall k, match zget k (ln_objs s), zget k (ln_objs s') with
             | Some o, Some o' => forall c, has_property c o' = has_property c o
             | None, None => True
             | _, _ => False
             end).
Proof.
  intros Q N C Ft Hm H. unfold outcome. destruct (names_unknown s m) eqn:U.
  - destruct (unknown_step PS w tr s a m s' tr' r Q Ft Hm U H) as (-> & F' & C' & _ & o & o' & Z & Z' & W & O).
    split; [reflexivity|]. split; [exact F'|]. split; [congruence|]. intros k.
    destruct (Z.eq_dec k (m_DEOJ m)) as [->|Ek]; [rewrite Z, Z'; exact (proj2 (written_obj _ _ _ W))|].
    rewrite (O k Ek). destruct (zget k (ln_objs s)); auto.
  - apply knows_iff in U. exact (fitting_step PS w tr s a m s' tr' r Q N C Ft Hm U H).
Qed.
Lemma outcome_same s s' : (forall k, match zget k (ln_objs s), zget k (ln_objs s') with
             | Some o, Some o' => forall c, has_property c o' = has_property c o
             | None, None => True
             | _, _ => False
             end) -> forall m, outcome s' m = outcome s m.
Proof.
  intros K m. unfold outcome, names_unknown. specialize (K (m_DEOJ m)).
  destruct (zget (m_DEOJ m) (ln_objs s)) as [o|], (zget (m_DEOJ m) (ln_objs s')) as [o'|]; try contradiction; [|reflexivity].
  replace (forallb (fun p => has_property (p_code p) o') (m_gets m)) with (forallb (fun p => has_property (p_code p) o) (m_gets m)); [reflexivity|].
  induction (m_gets m) as [|p l IH]; [reflexivity|]. cbn [forallb]. now rewrite K, IH.
Qed.
Lemma L_C62_exact : forall (PS : PySet) w ms tr s s' tr' rs, quiet w -> no_raise w -> ln_ctl s = None -> fitting_node s ->
  Forall (fun m => exists a, received_from a m) ms -> received_all w tr s ms = (s', tr', rs) ->
  rs = map (outcome s) ms /\ fitting_node s'.
Proof.
  intros PS w ms. induction ms as [|m ms IH]; intros tr s s' tr' rs Q N C Ft F; cbn [received_all].
  - intros [= <- <- <-]. split; [reflexivity|exact Ft].
  - destruct (node_received w tr s m) as [[s1 tr1] r] eqn:E. destruct (received_all w tr1 s1 ms) as [[s2 tr2] rs2] eqn:R.
    intros [= <- <- <-]. pose proof (Forall_inv F) as (a & Hm).
    destruct (exact_step PS w tr s a m s1 tr1 r Q N C Ft Hm E) as (-> & Ft1 & C1 & H1).
    destruct (IH _ _ _ _ _ Q N C1 Ft1 (Forall_inv_tail F) R) as (-> & X). split; [|exact X]. cbn [map]. f_equal.
    apply map_ext. exact (outcome_same _ _ H1).
Qed.
Lemma L_C62_raised : forall (PS : PySet) w tr s a m s' tr' r, quiet w -> fitting_node s -> received_from a m -> names_unknown s m = true ->
  node_received w tr s m = (s', tr', r) ->
  r = Err AttributeError /\ sent (since tr tr') = [] /\
  exists o o', zget (m_DEOJ m) (ln_objs s) = Some o /\ zget (m_DEOJ m) (ln_objs s') = Some o' /\ written o (m_sets m) o' /\
    forall k, k <> m_DEOJ m -> zget k (ln_objs s') = zget k (ln_objs s).
Proof.
  intros PS w tr s a m s' tr' r Q Ft Hm U H. destruct (unknown_step PS w tr s a m s' tr' r Q Ft Hm U H) as (A & _ & _ & B & D).
  split; [exact A|]. split; [exact B|exact D].
Qed.
Lemma L_C50_exact : forall (PS : PySet) w tr s c a m s' tr' r, quiet w -> no_raise w -> ln_ctl s = Some c ->
  fitting_node s -> received_from a m -> node_received w tr s m = (s', tr', r) ->
  forall e, r = Err e <-> raises c m e \/ (e = AttributeError /\ names_unknown s m = true).
Proof.
  intros PS w tr s c a m s' tr' r Q N C Ft Hm H e. destruct (names_unknown s m) eqn:U.
  - destruct (unknown_step PS w tr s a m s' tr' r Q Ft Hm U H) as (-> & _).
    unfold names_unknown in U. apply andb_prop in U. destruct U as (I & _). apply Z.eqb_eq in I.
    split; [intros [= <-]; right; split; reflexivity|]. intros [X|(-> & _)]; [exfalso|reflexivity].
    destruct e; cbn [raises] in X; try contradiction; rewrite I in X; intuition discriminate.
  - apply knows_iff in U. rewrite (L_C50_survives_partial PS w tr s c a m s' tr' r Q N C Ft Hm U H e). intuition discriminate.
Qed.

(** ** C61 *)
Lemma L_C61_exact : forall w tr c s, keyed c ->
  get_node w tr c (GAStr s) =
  match ctl_nodes c with
  | [] => Ok None
  | n :: _ => if String.eqb (node_ip n) s then Ok (Some n)
              else match os_resolve w tr s with
                   | Err e => Err e
                   | Ok ip => Ok (find_either s ip c)
                   end
  end.
Proof.
  intros w tr c s K. unfold get_node, find_either, ctl_nodes, dvals, keyed in *. destruct (os_resolve w tr s) as [ip|e] eqn:R.
  - assert (L : get_node_loop w tr (c_found c) (GAStr s) = Ok (find (fun n => String.eqb (node_ip n) s || String.eqb (node_ip n) ip) (map snd (c_found c)))).
    { induction (c_found c) as [|[k n] d IH]; [reflexivity|]. cbn [get_node_loop map find snd]. pose proof (Forall_inv K) as E. cbn in E. rewrite E, R.
      cbn [bindr]. rewrite (String.eqb_sym s k). destruct (String.eqb k s); [reflexivity|]. cbn [orb]. rewrite (String.eqb_sym k ip).
      destruct (String.eqb ip k); [reflexivity|]. exact (IH (Forall_inv_tail K)). }
    rewrite L. destruct (c_found c) as [|[k n] d]; [reflexivity|]. cbn [map find snd]. destruct (String.eqb (node_ip n) s); reflexivity.
  - destruct (c_found c) as [|[k n] d]; [reflexivity|]. cbn [get_node_loop map snd]. pose proof (Forall_inv K) as E. cbn in E. rewrite E, R, (String.eqb_sym s k).
    destruct (String.eqb k s); reflexivity.
Qed.
