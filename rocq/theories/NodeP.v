(** Lemmas for C29, C34, C38, C42, C44, C60. *)
From Verif Require Import PyBase BytesM EsvM MsgM PropM ObjM DbData DbM NodeM LocalM CtrlM
  SpecWire SpecObj SpecNode DictP BytesP ObjP.
From Coq Require Import Permutation.
Require Import ZifyBool.

(** ** C29 *)
Lemma add_run_snoc ops x n : add_run (ops ++ [x]) n = fst (node_add_object x (add_run ops n)).
Proof. unfold add_run. now rewrite fold_left_app. Qed.

Lemma last_obj_snoc c ops x : last_obj c (ops ++ [x]) =
  match x with Some o => if o_code o =? c then Some o else last_obj c ops | None => last_obj c ops end.
Proof.
  induction ops as [|y ops IH]; cbn [app last_obj].
  - destruct x as [o|]; [destruct (o_code o =? c)|]; reflexivity.
  - rewrite IH. destruct x as [o|]; [|reflexivity]. destruct (o_code o =? c); reflexivity.
Qed.

Lemma add_run_get ops n c : n_objs n = [] -> zget c (n_objs (add_run ops n)) = last_obj c ops.
Proof.
  intros E. induction ops as [|x ops IH] using rev_ind; [cbn; now rewrite E|].
  rewrite add_run_snoc, last_obj_snoc. destruct x as [o|]; cbn [node_add_object fst n_objs]; [|exact IH].
  rewrite zget_zset, IH, (Z.eqb_sym c). reflexivity.
Qed.

Lemma firsts_in {A} eqb (H : forall a b : A, eqb a b = true <-> a = b) l x : In x (firsts eqb l) <-> In x l.
Proof.
  revert x. induction l as [|y l IH]; intros x; [tauto|]. cbn [firsts In]. rewrite filter_In, IH.
  destruct (eqb y x) eqn:E; cbn [negb]; [apply H in E; tauto|]. 
  assert (y <> x) by (intros ->; rewrite (proj2 (H x x) eq_refl) in E; discriminate). tauto.
Qed.
Lemma firsts_nodup {A} eqb (H : forall a b : A, eqb a b = true <-> a = b) l : NoDup (firsts eqb l).
Proof.
  induction l as [|y l IH]; cbn [firsts]; constructor.
  - rewrite filter_In. rewrite (proj2 (H y y) eq_refl). cbn. intros (_ & K). discriminate.
  - now apply NoDup_filter.
Qed.
Lemma firsts_snoc {A} eqb (H : forall a b : A, eqb a b = true <-> a = b) l x :
  firsts eqb (l ++ [x]) = if existsb (eqb x) l then firsts eqb l else firsts eqb l ++ [x].
Proof.
  induction l as [|y l IH]; [reflexivity|]. cbn [app firsts existsb]. rewrite IH.
  assert (S : eqb y x = eqb x y).
  { destruct (eqb x y) eqn:E; [apply H in E; subst; now apply H|].
    destruct (eqb y x) eqn:E'; [apply H in E'; subst; rewrite (proj2 (H x x) eq_refl) in E; discriminate|reflexivity]. }
  destruct (eqb x y) eqn:E; cbn [orb].
  - destruct (existsb (eqb x) l); [reflexivity|]. rewrite filter_app. cbn [filter]. rewrite S. cbn [negb]. 
    now rewrite app_nil_r.
  - destruct (existsb (eqb x) l); [reflexivity|]. rewrite filter_app. cbn [filter]. rewrite S. reflexivity.
Qed.

Lemma added_codes_snoc ops x : added_codes (ops ++ [x]) = added_codes ops ++ match x with Some o => [o_code o] | None => [] end.
Proof. unfold added_codes. rewrite flat_map_app. cbn. now rewrite app_nil_r. Qed.

Lemma add_run_keys ops n : n_objs n = [] -> dkeys (n_objs (add_run ops n)) = firsts Z.eqb (added_codes ops).
Proof.
  intros E. induction ops as [|x ops IH] using rev_ind; [cbn; now rewrite E|].
  rewrite add_run_snoc, added_codes_snoc. destruct x as [o|]; cbn [node_add_object fst n_objs].
  - rewrite zkeys_zset, (firsts_snoc Z.eqb zeqb_eq), IH.
    destruct (existsb (Z.eqb (o_code o)) (added_codes ops)) eqn:X.
    + apply existsb_exists in X. destruct X as (k & K & Ek). apply Z.eqb_eq in Ek. subst k.
      apply (proj2 (firsts_in Z.eqb zeqb_eq _ _)) in K. rewrite <- IH in K. apply zget_some in K. destruct K as (v & ->). reflexivity.
    + destruct (zget (o_code o) (n_objs (add_run ops n))) eqn:G; [|reflexivity]. exfalso.
      assert (K : In (o_code o) (dkeys (n_objs (add_run ops n)))) by (apply zget_some; eauto).
      rewrite IH in K. apply (proj1 (firsts_in Z.eqb zeqb_eq _ _)) in K.
      enough (true = false) by discriminate. rewrite <- X. symmetry. apply existsb_exists. exists (o_code o).
      split; [exact K|lia].
  - now rewrite app_nil_r.
Qed.

Lemma add_run_wf ops n k o : n_objs n = [] -> In (k, o) (n_objs (add_run ops n)) -> o_code o = k.
Proof.
  intros E. revert k o. induction ops as [|x ops IH] using rev_ind; intros k o; [cbn; rewrite E; intros []|].
  rewrite add_run_snoc. destruct x as [y|]; cbn [node_add_object fst n_objs]; [|apply IH].
  intros H. apply (in_dset Z.eqb) in H. destruct H as [H|[H|(a & Ha & H)]].
  - now injection H as -> ->.
  - now apply IH.
  - injection H as -> ->. lia.
Qed.

Lemma L_C29_object_table : forall a ops, let n := add_run ops (new_node a) in
  (forall c, get_object (PInt c) n = last_obj c ops) /\
  (forall c, has_object c n = isSome (last_obj c ops)) /\
  (forall g c i, byte_ok g -> byte_ok c -> byte_ok i ->
     get_object (PTup [g; c; i]) n = get_object (PInt (compose g c i)) n) /\
  map o_code (node_objects n) = firsts Z.eqb (added_codes ops) /\
  (forall o, In o (node_objects n) <-> last_obj (o_code o) ops = Some o).
Proof.
  intros a ops n. assert (E : n_objs (new_node a) = []) by (destruct a; reflexivity).
  assert (G : forall c, zget c (n_objs n) = last_obj c ops) by (intros c; now apply add_run_get).
  assert (W : forall k o, In (k, o) (n_objs n) -> o_code o = k) by (intros k o; now apply add_run_wf).
  assert (K : dkeys (n_objs n) = firsts Z.eqb (added_codes ops)) by now apply add_run_keys.
  assert (N : NoDup (dkeys (n_objs n))) by (rewrite K; apply (firsts_nodup Z.eqb zeqb_eq)).
  split; [exact G|]. split; [|split; [|split]].
  - intros c. unfold has_object. rewrite <- G. destruct (zget c (n_objs n)) eqn:X; cbn [isSome].
    + apply existsb_exists. exists c. split; [|lia]. apply zget_some. eauto.
    + apply zget_none in X. destruct (existsb (Z.eqb c) (dkeys (n_objs n))) eqn:Y; [|reflexivity].
      apply existsb_exists in Y. destruct Y as (k & Hk & Ek). exfalso. apply X. replace c with k by lia. assumption.
  - intros g c i Hg Hc Hi. unfold get_object, new_object. cbn [o_code].
    destruct (L_C11_set_code_tuple CODE_UNKNOWN g c i Hg Hc Hi) as (H & _). rewrite H. reflexivity.
  - rewrite <- K. unfold node_objects, dvals, dkeys. rewrite map_map. apply map_ext_in. intros [k o] H. cbn. now apply W.
  - intros o. rewrite <- G. split.
    + unfold node_objects, dvals. intros H. apply in_map_iff in H. destruct H as ([k o'] & Eo & H). cbn in Eo. subst o'.
      rewrite (W _ _ H). now apply in_zget.
    + intros H. apply zget_in in H. unfold node_objects, dvals. apply in_map_iff. exists (o_code o, o). auto.
Qed.

Lemma L_C29_results : forall o n, snd (node_add_object o n) = isSome o.
Proof. intros [o|] n; reflexivity. Qed.

(** ** C34 *)
Lemma L_C34_options : forall s opt,
  (opt <> 0 -> is_enabled opt (fst (set_enabled opt true s)) = true) /\
  is_enabled opt (fst (set_enabled opt false s)) = false /\
  (forall opt' v, Z.land opt opt' = 0 -> is_enabled opt' (fst (set_enabled opt v s)) = is_enabled opt' s) /\
  (forall v, snd (set_enabled opt v s) = true) /\
  (forall v, fst (set_enabled opt v s) = set_ln_opts (ln_opts (fst (set_enabled opt v s))) s).
Proof.
  intros s opt. unfold set_enabled, is_enabled. cbn [fst snd ln_opts set_ln_opts].
  split; [|split; [|split; [|split]]].
  - intros H. rewrite Z.land_lor_distr_l, Z.land_diag.
    destruct (Z.eqb_spec (Z.lor (Z.land (ln_opts s) opt) opt) 0) as [E|]; [|reflexivity].
    apply Z.lor_eq_0_iff in E. tauto.
  - rewrite <- Z.land_assoc, Z.land_comm, (Z.land_comm (Z.lnot opt)), Z.land_lnot_diag. reflexivity.
  - intros opt' v H. destruct v.
    + rewrite Z.land_lor_distr_l, H, Z.lor_0_r. reflexivity.
    + replace (Z.land (Z.land (ln_opts s) (Z.lnot opt)) opt') with (Z.land (ln_opts s) opt'); [reflexivity|].
      apply Z.bits_inj'. intros n Hn. rewrite !Z.land_spec, Z.lnot_spec by assumption.
      assert (B : Z.testbit (Z.land opt opt') n = false) by (rewrite H; apply Z.bits_0).
      rewrite Z.land_spec in B. destruct (Z.testbit (ln_opts s) n), (Z.testbit opt n), (Z.testbit opt' n); cbn in *; congruence.
  - reflexivity.
  - reflexivity.
Qed.

Lemma L_C34_initial : forall (PS : PySet) controller r s, new_local controller r = (s, Ok tt) ->
  is_enabled IGNORE_SELF_MESSAGE s = true.
Proof.
  intros PS controller r s. unfold new_local. destruct (new_node_profile r) as [o [[]|e]]; [|discriminate].
  unfold update_profile. cbn [ln_prof ln_objs ln_node n_objs].
  destruct (zget NODE_PROFILE_CODE [(o_code o, o)]) as [p|]; [|intros [= <-]; reflexivity].
  destruct (np_update_map _ p) as [p' [b|e]]; [|discriminate]. intros [= <-]. reflexivity.
Qed.

(** ** C42 *)
Lemma obs_eqb_eq a b : obs_eqb a b = true <-> a = b.
Proof.
  destruct a, b; cbn; try (split; congruence).
  rewrite Nat.eqb_eq. split; [intros ->; reflexivity|intros [= ->]; reflexivity].
Qed.
Lemma subj_add_firsts o l : fst (subj_add o (firsts obs_eqb l)) = firsts obs_eqb (l ++ [o]).
Proof.
  rewrite (firsts_snoc obs_eqb obs_eqb_eq). unfold subj_add.
  assert (S : existsb (obs_eqb o) (firsts obs_eqb l) = existsb (obs_eqb o) l).
  { destruct (existsb (obs_eqb o) l) eqn:X.
    - apply existsb_exists in X. destruct X as (k & K & Ek). apply existsb_exists. exists k. split; [now apply (firsts_in obs_eqb obs_eqb_eq)|assumption].
    - destruct (existsb (obs_eqb o) (firsts obs_eqb l)) eqn:Y; [|reflexivity].
      apply existsb_exists in Y. destruct Y as (k & K & Ek). apply (proj1 (firsts_in obs_eqb obs_eqb_eq _ _)) in K.
      exfalso. enough (true = false) by discriminate. rewrite <- X. symmetry. apply existsb_exists. exists k. split; assumption. }
  rewrite S. destruct (existsb (obs_eqb o) l); reflexivity.
Qed.
Lemma register_firsts l : register l = firsts obs_eqb l.
Proof.
  unfold register. induction l as [|o l IH] using rev_ind; [reflexivity|].
  rewrite fold_left_app. cbn [fold_left]. rewrite IH. apply subj_add_firsts.
Qed.

Lemma calls_quiet w evs : quiet w -> forall tr, calls w tr evs = (tr ++ evs, Ok tt).
Proof.
  intros Q. induction evs as [|e evs IH]; intros tr; cbn [calls call]; [now rewrite app_nil_r|].
  rewrite Q, IH. now rewrite <- app_assoc.
Qed.

Lemma notify_users (PS : PySet) w ns : quiet w -> forall tr s m,
  notify w tr s (map OUser ns) m = (s, tr ++ map (fun n => EvObs n m) ns, Ok tt).
Proof.
  intros Q. induction ns as [|n ns IH]; intros tr s m; cbn [map notify tell]; [now rewrite app_nil_r|].
  cbn [call]. rewrite Q, IH. now rewrite <- app_assoc.
Qed.

Lemma firsts_map_user ns : firsts obs_eqb (map OUser ns) = map OUser (firsts Nat.eqb ns).
Proof.
  induction ns as [|n ns IH]; [reflexivity|]. cbn [map firsts]. rewrite IH. f_equal.
  clear IH. induction (firsts Nat.eqb ns) as [|k l IH]; [reflexivity|]. cbn [map filter obs_eqb].
  destruct (Nat.eqb n k); cbn [negb map]; [exact IH|f_equal; exact IH].
Qed.

Lemma L_C42_observers_partial : forall (PS : PySet) w tr s m ns, quiet w ->
  let l := register (map OUser ns) in
  NoDup l /\ (forall o, In o l <-> In o (map OUser ns)) /\ l = map OUser (firsts Nat.eqb ns) /\
  (forall o acc, snd (subj_add o acc) = true) /\
  notify w tr s l m = (s, tr ++ map (fun n => EvObs n m) (firsts Nat.eqb ns), Ok tt).
Proof.
  intros PS w tr s m ns Q l. subst l. rewrite register_firsts.
  split; [apply (firsts_nodup obs_eqb obs_eqb_eq)|]. split; [intros o; apply (firsts_in obs_eqb obs_eqb_eq)|].
  split; [apply firsts_map_user|]. split.
  - intros o acc. unfold subj_add. destruct (existsb (obs_eqb o) acc); reflexivity.
  - rewrite firsts_map_user. now apply notify_users.
Qed.

Lemma L_C42_none_refuted : exists l, subj_add ONone l = (l ++ [ONone], true) /\
  forall (PS : PySet) w tr s m, snd (notify w tr s (fst (subj_add ONone l)) m) = Err AttributeError.
Proof. exists []. split; reflexivity. Qed.

(** ** C44, C60 *)
Lemma opened_app a b : opened (a ++ b) = opened a ++ opened b.
Proof. apply flat_map_app. Qed.
Lemma closed_app a b : closed (a ++ b) = closed a ++ closed b.
Proof. apply flat_map_app. Qed.

Definition srv_pair (i : string) : list server := [mksrv true i true true []; mksrv false i true true []].

Lemma start_one w tr g uni i : 
  (exists r, os_bind w tr uni i = Ok r /\
     mgr_start_one w tr g uni i = (set_servers (g_servers g ++ [mksrv uni i true true []]) g, tr ++ [EvBind uni i (Ok r)], Ok true)) \/
  (exists e, os_bind w tr uni i = Err e /\ mgr_start_one w tr g uni i = (g, tr ++ [EvBind uni i (Err e)], Err e)).
Proof.
  unfold mgr_start_one, server_bind. cbn [new_server s_uni].
  destruct (os_bind w tr uni i) as [r|e]; [left; exists r|right; exists e]; split; reflexivity.
Qed.

Definition keys (g : manager) : list socket := map (fun s => (s_uni s, s_if s)) (g_servers g).
Definition acct (tr : trace) (g : manager) : Prop :=
  Permutation (opened tr) (closed tr ++ keys g) /\ (forall s, In s (g_servers g) -> s_open s = true).

Lemma start_one_acct w tr g uni i g' tr' r : mgr_start_one w tr g uni i = (g', tr', r) -> acct tr g -> acct tr' g'.
Proof.
  intros E (P & O). destruct (start_one w tr g uni i) as [(x & _ & K)|(e & _ & K)]; rewrite K in E; injection E as <- <- <-.
  - split.
    + rewrite opened_app, closed_app. unfold keys in *. cbn [opened closed flat_map app set_servers g_servers].
      rewrite map_app. cbn [map s_uni s_if]. rewrite app_nil_r, app_assoc. now apply Permutation_app_tail.
    + intros s H. cbn [set_servers g_servers] in H. apply in_app_iff in H. destruct H as [H|[<-|[]]]; auto.
  - split; [|assumption]. rewrite opened_app, closed_app. cbn. now rewrite !app_nil_r.
Qed.

Lemma start_loop_acct w l : forall tr g g' tr' r, mgr_start_loop w tr g l = (g', tr', r) -> acct tr g -> acct tr' g'.
Proof.
  induction l as [|i l IH]; intros tr g g' tr' r; cbn [mgr_start_loop]; [intros [= <- <- <-]; auto|].
  destruct (mgr_start_one w tr g true i) as [[g1 tr1] r1] eqn:E1. intros H A.
  pose proof (start_one_acct _ _ _ _ _ _ _ _ E1 A) as A1.
  destruct r1 as [[]|]; [|injection H as <- <- <-; exact A1|injection H as <- <- <-; exact A1].
  destruct (mgr_start_one w tr1 g1 false i) as [[g2 tr2] r2] eqn:E2.
  pose proof (start_one_acct _ _ _ _ _ _ _ _ E2 A1) as A2.
  destruct r2 as [[]|]; [|injection H as <- <- <-; exact A2|injection H as <- <- <-; exact A2].
  exact (IH _ _ _ _ _ H A2).
Qed.

Lemma start_loop_ok w l : forall tr g, 
  (exists tr', mgr_start_loop w tr g l = (set_servers (g_servers g ++ flat_map srv_pair l) g, tr', Ok true)) \/
  (exists g' tr' e, mgr_start_loop w tr g l = (g', tr', Err e)).
Proof.
  induction l as [|i l IH]; intros tr g; cbn [mgr_start_loop flat_map].
  - left. exists tr. rewrite app_nil_r. destruct g; reflexivity.
  - destruct (start_one w tr g true i) as [(x & _ & ->)|(e & _ & ->)]; [|right; eauto].
    set (g1 := set_servers _ g). set (tr1 := tr ++ _).
    destruct (start_one w tr1 g1 false i) as [(y & _ & ->)|(e & _ & ->)]; [|right; eauto].
    set (g2 := set_servers _ g1). set (tr2 := tr1 ++ _).
    destruct (IH tr2 g2) as [(tr' & ->)|(g' & tr' & e & ->)]; [left|right; eauto].
    exists tr'. unfold g2, g1, srv_pair. cbn [set_servers g_servers g_tid app]. rewrite <- !app_assoc. reflexivity.
Qed.

Lemma stop_acct tr g : acct tr g -> forall g' tr' b, mgr_stop tr g = (g', tr', b) ->
  acct tr' g' /\ g_servers g' = [] /\ Permutation (opened tr') (closed tr') /\ b = true /\ g_tid g' = g_tid g.
Proof.
  intros (P & O) g' tr' b [= <- <- <-].
  set (evs := flat_map _ (g_servers g)).
  assert (E : opened evs = [] /\ closed evs = keys g).
  { unfold evs, keys. clear P. revert O. induction (g_servers g) as [|s l IH]; intros O; [split; reflexivity|].
    cbn [flat_map map]. rewrite opened_app, closed_app. unfold server_stop at 1 3. rewrite (O s) by (now left). cbn [negb snd fst].
    destruct IH as (I1 & I2); [intros; apply O; now right|]. rewrite I1, I2. split; reflexivity. }
  destruct E as (E1 & E2).
  assert (P' : Permutation (opened (tr ++ evs)) (closed (tr ++ evs))).
  { rewrite opened_app, closed_app, E1, E2, app_nil_r. exact P. }
  split; [|split; [reflexivity|split; [exact P'|split; reflexivity]]].
  split; [cbn; rewrite app_nil_r; exact P'|intros s []].
Qed.

Lemma start_acct w tr g l g' tr' r : mgr_start w tr g l = (g', tr', r) -> acct tr g -> acct tr' g'.
Proof.
  unfold mgr_start. destruct (mgr_stop tr g) as [[g0 tr0] b] eqn:E0. intros H A.
  destruct (stop_acct tr g A _ _ _ E0) as (A0 & _).
  destruct (mgr_start_loop w tr0 g0 _) as [[g1 tr1] r1] eqn:E1.
  pose proof (start_loop_acct _ _ _ _ _ _ _ E1 A0) as A1.
  destruct r1 as [[]|]; [destruct (zlen (g_servers g1) <=? 0)| |]; injection H as <- <- <-; exact A1.
Qed.

Lemma mgr_start_shape w tr g l g' tr' r : mgr_start w tr g l = (g', tr', r) ->
  let ifs := match l with [] => get_all_ipaddrs (os_netif w (snd (fst (mgr_stop tr g)))) | _ => l end in
  (r = Ok true /\ ifs <> [] /\ running [] ifs (g_servers g')) \/
  (r = Ok false /\ ifs = [] /\ g_servers g' = []) \/
  (exists e, r = Err e).
Proof.
  unfold mgr_start. destruct (mgr_stop tr g) as [[g0 tr0] b] eqn:E0. cbn [fst snd].
  assert (N : g_servers g0 = []) by (unfold mgr_stop in E0; injection E0 as <- _ _; reflexivity).
  replace (if zlen l <=? 0 then get_all_ipaddrs (os_netif w tr0) else l)
    with (match l with [] => get_all_ipaddrs (os_netif w tr0) | _ => l end) by (destruct l; reflexivity).
  set (ifs := match l with [] => _ | _ => l end).
  destruct (start_loop_ok w ifs tr0 g0) as [(tr1 & ->)|(g1 & tr1 & e & ->)].
  - rewrite N. cbn [app set_servers g_servers]. destruct ifs as [|i ifs'] eqn:F.
    + cbn. intros [= <- _ <-]. right; left. repeat split.
    + cbn [flat_map srv_pair app]. intros H. left.
      match type of H with (if ?c then _ else _) = _ => replace c with false in H by (cbn [set_servers g_servers]; unfold zlen; cbn [length]; lia) end.
      injection H as <- _ <-. split; [reflexivity|]. split; [discriminate|]. reflexivity.
  - intros [= <- <- <-]. right; right. eauto.
Qed.

Lemma ipaddrs_spec ifs : get_all_ipaddrs ifs = non_loopback (reported ifs).
Proof.
  unfold get_all_ipaddrs, reported, non_loopback. induction ifs as [|x ifs IH]; [reflexivity|].
  cbn [flat_map]. rewrite filter_app, <- IH. f_equal. destruct x as [l|]; [|reflexivity].
  clear. induction l as [|y l IH]; [reflexivity|]. cbn [flat_map]. rewrite filter_app, <- IH. f_equal.
  destruct y as [ip|]; [|reflexivity]. cbn [filter]. destruct (String.eqb ip "127.0.0.1"); reflexivity.
Qed.

Lemma running_observed ifs l : running [] ifs l -> running [ONode] ifs (map (server_add_observer ONode) l).
Proof.
  unfold running. intros ->. induction ifs as [|i ifs IH]; [reflexivity|]. cbn [flat_map app map]. now rewrite IH.
Qed.

Lemma local_start_shape w tr s l s' tr' r : local_start w tr s l = (s', tr', r) ->
  let ifs := non_loopback (reported (os_netif w (snd (fst (local_stop tr s))))) in
  (r = Ok true /\ ifs <> [] /\ running [ONode] ifs (g_servers (ln_mgr s')) /\
     (exists i rest, ifs = i :: rest /\ ln_addr s' = Some (i, 3610))) \/
  (r = Ok false /\ ifs = [] /\ g_servers (ln_mgr s') = []) \/
  (exists e, r = Err e).
Proof.
  intros H ifs. unfold local_start in H. destruct (mgr_start w tr (ln_mgr s) []) as [[g tr1] r1] eqn:E.
  pose proof (mgr_start_shape _ _ _ _ _ _ _ E) as S. cbn zeta in S. rewrite ipaddrs_spec in S.
  change (snd (fst (mgr_stop tr (ln_mgr s)))) with (snd (fst (local_stop tr s))) in S. fold ifs in S.
  destruct S as [(-> & N & R)|[(-> & N & R)|(e & ->)]].
  - injection H as <- <- <-. left. split; [reflexivity|]. split; [assumption|].
    split; [cbn [ln_mgr set_ln_mgr mgr_add_observer set_servers g_servers]; now apply running_observed|].
    destruct ifs as [|i rest]; [congruence|]. exists i, rest. split; [reflexivity|].
    unfold running in R. cbn [ln_addr ln_node set_ln_mgr set_ln_node set_address fst n_addr].
    unfold mgr_ifaddr, mgr_port. rewrite R. reflexivity.
  - injection H as <- <- <-. right; left. auto.
  - injection H as <- <- <-. right; right. eauto.
Qed.

Definition life_ok (st : lnode * trace) : Prop := acct (snd st) (ln_mgr (fst st)).
Lemma acct_obs tr o g : acct tr g -> acct tr (mgr_add_observer o g).
Proof.
  intros (P & O). split.
  - unfold keys, mgr_add_observer in *. cbn [set_servers g_servers]. rewrite map_map. exact P.
  - unfold mgr_add_observer. cbn [set_servers g_servers]. intros s H. apply in_map_iff in H. destruct H as (s0 & <- & H). cbn. auto.
Qed.
Lemma local_start_acct w tr s l s' tr' r : local_start w tr s l = (s', tr', r) -> acct tr (ln_mgr s) -> acct tr' (ln_mgr s').
Proof.
  unfold local_start. destruct (mgr_start w tr (ln_mgr s) []) as [[g tr1] r1] eqn:E. intros H A.
  pose proof (start_acct _ _ _ _ _ _ _ E A) as A1. 
  destruct r1 as [[]|]; injection H as <- <- <-; [now apply acct_obs|exact A1|exact A1].
Qed.
Lemma life_step_ok w st op : life_ok st -> life_ok (life_step w st op).
Proof.
  destruct st as [s tr]. unfold life_ok. cbn [fst snd]. intros A. destruct op as [l|]; cbn [life_step fst snd].
  - destruct (local_start w tr s l) as [[s' tr'] r] eqn:E. cbn [fst snd]. now apply (local_start_acct _ _ _ _ _ _ _ E).
  - unfold local_stop. destruct (mgr_stop tr (ln_mgr s)) as [[g tr'] b] eqn:E. cbn [fst snd ln_mgr set_ln_mgr].
    now apply (stop_acct tr (ln_mgr s) A _ _ _ E).
Qed.
Lemma life_run_ok w ops : forall st, life_ok st -> life_ok (life_run w ops st).
Proof.
  unfold life_run. induction ops as [|op ops IH]; intros st A; [exact A|]. cbn [fold_left]. apply IH. now apply life_step_ok.
Qed.

Lemma L_C44_start : forall w tr s l s' tr', local_start w tr s l = (s', tr', Ok true) ->
  let ifs := non_loopback (reported (os_netif w (snd (fst (local_stop tr s))))) in
  ifs <> [] /\ running [ONode] ifs (g_servers (ln_mgr s')) /\
  exists i rest, ifs = i :: rest /\ ln_addr s' = Some (i, 3610).
Proof.
  intros w tr s l s' tr' H. destruct (local_start_shape _ _ _ _ _ _ _ H) as [(_ & A & B & C)|[(A & _)|(e & A)]];
    [auto|discriminate|discriminate].
Qed.

Lemma L_C44_stop : forall w ops s0 s tr s' tr' b,
  g_servers (ln_mgr s0) = [] -> life_run w ops (s0, []) = (s, tr) -> local_stop tr s = (s', tr', b) ->
  b = true /\ g_servers (ln_mgr s') = [] /\ Permutation (opened tr') (closed tr') /\
  local_stop tr' s' = (s', tr', true).
Proof.
  intros w ops s0 s tr s' tr' b N R H.
  assert (A : life_ok (s, tr)).
  { rewrite <- R. apply life_run_ok. split; [cbn; unfold keys; rewrite N; constructor|cbn; rewrite N; intros x []]. }
  unfold local_stop in H. destruct (mgr_stop tr (ln_mgr s)) as [[g tr1] b1] eqn:E. injection H as <- <- <-.
  destruct (stop_acct tr (ln_mgr s) A _ _ _ E) as (_ & Ng & P & -> & _).
  split; [reflexivity|]. split; [exact Ng|]. split; [exact P|].
  unfold local_stop, mgr_stop. cbn [ln_mgr set_ln_mgr]. rewrite Ng. cbn [flat_map]. rewrite app_nil_r.
  destruct s; cbn. destruct g as [t l]; cbn in Ng; subst l. reflexivity.
Qed.

Lemma L_C44_failed_start_partial : forall w tr s l s' tr', local_start w tr s l = (s', tr', Ok false) ->
  g_servers (ln_mgr s') = [].
Proof.
  intros w tr s l s' tr' H. destruct (local_start_shape _ _ _ _ _ _ _ H) as [(A & _)|[(_ & _ & B)|(e & A)]];
    [discriminate|exact B|discriminate].
Qed.

(** The multicast socket cannot be bound. *)
Definition bad_os : os :=
  mkos (fun _ => [Some [Some "192.168.0.2"%string]]) (fun _ u _ => if u then Ok tt else Err OSError)
    (fun _ _ b _ => Ok (zlen b)) (fun _ s => Ok s) (fun _ _ => Ok tt).

Lemma L_C44_failed_start_refuted : exists w s s' tr' e,
  g_servers (ln_mgr s) = [] /\ local_start w [] s [] = (s', tr', Err e) /\
  (exists v, In v (g_servers (ln_mgr s')) /\ s_open v = true /\ s_alive v = true) /\
  ~ Permutation (opened tr') (closed tr').
Proof.
  exists bad_os, (mkln (new_node None) InTable 1 new_manager None). eexists _, _, _.
  split; [reflexivity|]. split; [cbn; reflexivity|]. split.
  - eexists. split; [now left|]. split; reflexivity.
  - cbn. intros P. apply Permutation_sym, Permutation_nil in P. discriminate.
Qed.

Lemma L_C60_all_interfaces : forall w tr s s' tr', local_start w tr s [] = (s', tr', Ok true) ->
  running [ONode] (non_loopback (reported (os_netif w (snd (fst (local_stop tr s)))))) (g_servers (ln_mgr s')).
Proof. intros w tr s s' tr' H. apply (L_C44_start _ _ _ _ _ _ H). Qed.

Lemma L_C60_requested_partial : forall w tr g l g' tr', l <> [] ->
  mgr_start w tr g l = (g', tr', Ok true) -> running [] l (g_servers g').
Proof.
  intros w tr g l g' tr' N H. destruct (mgr_start_shape _ _ _ _ _ _ _ H) as [(_ & _ & B)|[(A & _)|(e & A)]];
    [|discriminate|discriminate]. destruct l; [congruence|exact B].
Qed.

Definition good_os : os :=
  mkos (fun _ => [Some [Some "127.0.0.1"%string]; Some [Some "192.168.0.2"%string; None]; None; Some [Some "10.0.0.2"%string]])
    (fun _ _ _ => Ok tt) (fun _ _ b _ => Ok (zlen b)) (fun _ s => Ok s) (fun _ _ => Ok tt).

Lemma L_C60_requested_refuted : exists w s l s' tr', l <> [] /\
  local_start w [] s l = (s', tr', Ok true) /\
  ~ running [ONode] l (g_servers (ln_mgr s')) /\
  exists v, In v (g_servers (ln_mgr s')) /\ ~ In (s_if v) l.
Proof.
  exists good_os, (mkln (new_node None) InTable 1 new_manager None), ["10.0.0.2"%string]. eexists _, _.
  split; [discriminate|]. split; [cbn; reflexivity|]. split; [unfold running; cbn; discriminate|].
  eexists. split; [left; reflexivity|]. cbn. intros [H|[]]; discriminate.
Qed.

(** ** C38 *)
Lemma next_TID_mod g : 0 <= g_tid g <= 65535 -> 
  snd (next_TID g) = (g_tid g) mod 65535 + 1 /\ g_tid (fst (next_TID g)) = (g_tid g) mod 65535 + 1.
Proof.
  intros H. unfold next_TID. cbn [fst snd g_tid].
  destruct (Z.eq_dec (g_tid g) 65535) as [->|N]; [split; reflexivity|].
  rewrite Z.mod_small by lia. replace (0xFFFF <? g_tid g + 1) with false by lia. auto.
Qed.

Lemma transmit_tid w tr s m a tr' m' r : server_transmit w tr s m a = (tr', m', r) -> m' = set_to (Some a) m.
Proof.
  unfold server_transmit. destruct (to_string _); [|intros [= _ <- _]; reflexivity].
  destruct (to_bytes _); [|intros [= _ <- _]; reflexivity].
  destruct (os_sendto _ _ _ _ _); intros [= _ <- _]; reflexivity.
Qed.
Lemma send_loop_tid w l a : forall tr m tr' m' r, send_loop w tr l m a = (tr', m', r) -> m_TID m' = m_TID m.
Proof.
  induction l as [|s l IH]; intros tr m tr' m' r; cbn [send_loop]; [intros [= _ <- _]; reflexivity|].
  destruct (s_uni s); [|apply IH].
  destruct (server_send w tr s m a) as [[tr1 m1] r1] eqn:E.
  assert (T : m_TID m1 = m_TID m).
  { unfold server_send in E. destruct a as [a|]; [|injection E as _ <- _; reflexivity].
    destruct (s_open s); cbn [negb] in E; [|injection E as _ <- _; reflexivity].
    apply transmit_tid in E. subst m1. reflexivity. }
  destruct r1 as [[]|]; [intros [= _ <- _]; exact T| |intros [= _ <- _]; exact T].
  intros H. apply IH in H. congruence.
Qed.
Lemma announce_loop_tid w l : forall tr m tr' m' r, announce_loop w tr l m = (tr', m', r) -> m_TID m' = m_TID m.
Proof.
  induction l as [|s l IH]; intros tr m tr' m' r; cbn [announce_loop]; [intros [= _ <- _]; reflexivity|].
  destruct (s_uni s); [|apply IH].
  destruct (server_announce w tr s m) as [[tr1 m1] r1] eqn:E.
  assert (T : m_TID m1 = m_TID m).
  { unfold server_announce in E. destruct (s_open s); cbn [negb] in E; [|injection E as _ <- _; reflexivity].
    apply transmit_tid in E. subst m1. reflexivity. }
  destruct r1; [|intros [= _ <- _]; exact T]. intros H. apply IH in H. congruence.
Qed.

Lemma sop_step_tid w tr g op g' tr' m : sop_step w tr g op = (g', tr', m) ->
  g' = fst (assign_TID g (sop_msg op)) /\ m_TID m = m_TID (snd (assign_TID g (sop_msg op))).
Proof.
  destruct op as [m0 a|m0]; cbn [sop_step sop_msg].
  - unfold mgr_send. destruct (assign_TID g m0) as [g1 m1]. cbn [fst snd].
    destruct (send_loop w tr (g_servers g1) m1 a) as [[tr1 m2] r] eqn:E. intros [= <- _ <-].
    split; [reflexivity|]. exact (send_loop_tid _ _ _ _ _ _ _ _ E).
  - unfold mgr_announce. destruct (assign_TID g m0) as [g1 m1]. cbn [fst snd].
    destruct (announce_loop w tr (g_servers g1) m1) as [[tr1 m2] r] eqn:E. 
    pose proof (announce_loop_tid _ _ _ _ _ _ _ E). destruct r; intros [= <- _ <-]; auto.
Qed.

Definition nth_tid (t0 : Z) (k : nat) : Z := (t0 + Z.of_nat k) mod 65535 + 1.
Lemma sop_run_tids w ops : forall tr g g' tr' tids, 0 <= g_tid g <= 65535 -> sop_run w tr g ops = (g', tr', tids) ->
  0 <= g_tid g' <= 65535 /\ length tids = length ops /\
  assigned ops tids = map (nth_tid (g_tid g)) (seq 0 (length (assigned ops tids))) /\
  (forall k op t, nth_error ops k = Some op -> nth_error tids k = Some t -> m_TID (sop_msg op) <> 0 -> t = m_TID (sop_msg op)).
Proof.
  induction ops as [|op ops IH]; intros tr g g' tr' tids B; cbn [sop_run].
  - intros [= <- _ <-]. repeat split; try lia. intros [|k] op t; discriminate.
  - destruct (sop_step w tr g op) as [[g1 tr1] m] eqn:E. apply sop_step_tid in E. destruct E as (Eg & Em).
    destruct (sop_run w tr1 g1 ops) as [[g2 tr2] l] eqn:R. intros [= <- _ <-].
    unfold assign_TID in Eg, Em. destruct (m_TID (sop_msg op) =? 0) eqn:Z0.
    + pose proof (next_TID_mod g B) as (T1 & T2). destruct (next_TID g) as [gn t] eqn:X. cbn [fst snd m_TID set_TID] in *. subst g1.
      assert (B1 : 0 <= g_tid gn <= 65535) by (rewrite T2; pose proof (Z.mod_pos_bound (g_tid g) 65535); lia).
      destruct (IH _ _ _ _ _ B1 R) as (I1 & I2 & I3 & I4). split; [assumption|]. split; [cbn; lia|]. split.
      * cbn [assigned]. rewrite Z0. cbn [length seq map]. f_equal.
        -- unfold nth_tid. rewrite Z.add_0_r. congruence.
        -- rewrite I3 at 1. rewrite <- seq_shift, map_map. apply map_ext. intros k. unfold nth_tid.
           rewrite T2. f_equal. replace (g_tid g + Z.of_nat (S k)) with (g_tid g + 1 + Z.of_nat k) by lia.
           rewrite Z.add_mod, (Z.add_mod (g_tid g + 1)) by lia. f_equal. f_equal.
           rewrite (Z.add_mod (g_tid g mod 65535)), Z.mod_mod, <- Z.add_mod by lia. reflexivity.
      * intros [|k] op' t'; cbn [nth_error]; [intros [= <-] _; lia|apply I4].
    + cbn [fst snd] in *. subst g1. destruct (IH _ _ _ _ _ B R) as (I1 & I2 & I3 & I4).
      split; [assumption|]. split; [cbn; lia|]. split; [cbn [assigned]; rewrite Z0; exact I3|].
      intros [|k] op' t'; cbn [nth_error]; [intros [= <-] [= <-] _; exact Em|apply I4].
Qed.

Lemma nth_tid_distinct t0 i j : (i < j)%nat -> Z.of_nat j - Z.of_nat i < 65535 -> nth_tid t0 i <> nth_tid t0 j.
Proof.
  intros H1 H2 E. unfold nth_tid in E.
  assert (M : (t0 + Z.of_nat i) mod 65535 = (t0 + Z.of_nat j) mod 65535) by lia.
  pose proof (Z.div_mod (t0 + Z.of_nat i) 65535). pose proof (Z.div_mod (t0 + Z.of_nat j) 65535). lia.
Qed.

Lemma L_C38_tids : forall w tr g ops g' tr' tids, 0 <= g_tid g <= 65535 ->
  sop_run w tr g ops = (g', tr', tids) ->
  0 <= g_tid g' <= 65535 /\ length tids = length ops /\
  (forall t, In t (assigned ops tids) -> 1 <= t <= 65535) /\
  (forall i j t u, (i < j)%nat -> Z.of_nat j - Z.of_nat i < 65535 ->
     nth_error (assigned ops tids) i = Some t -> nth_error (assigned ops tids) j = Some u -> t <> u) /\
  (forall k op t, nth_error ops k = Some op -> nth_error tids k = Some t -> m_TID (sop_msg op) <> 0 ->
     t = m_TID (sop_msg op)).
Proof.
  intros w tr g ops g' tr' tids B R. destruct (sop_run_tids _ _ _ _ _ _ _ B R) as (I1 & I2 & I3 & I4).
  split; [assumption|]. split; [assumption|]. split; [|split; [|assumption]].
  - intros t. rewrite I3. intros H. apply in_map_iff in H. destruct H as (k & <- & _). unfold nth_tid.
    pose proof (Z.mod_pos_bound (g_tid g + Z.of_nat k) 65535). lia.
  - intros i j t u Hi Hj Ei Ej.
    assert (N : forall k v, nth_error (assigned ops tids) k = Some v -> v = nth_tid (g_tid g) k).
    { intros k v E. rewrite I3 in E. rewrite nth_error_map in E.
      destruct (nth_error (seq 0 (length (assigned ops tids))) k) as [x|] eqn:S; [|discriminate].
      injection E as <-. f_equal. assert (Hk : (k < length (seq 0 (length (assigned ops tids))))%nat) by (apply nth_error_Some; congruence).
      rewrite seq_length in Hk. apply nth_error_nth with (d := O) in S. rewrite seq_nth in S by assumption. lia. }
    rewrite (N _ _ Ei), (N _ _ Ej). now apply nth_tid_distinct.
Qed.

Lemma L_C38_nonzero_unconsumed : forall w tr g op g' tr' m, m_TID (sop_msg op) <> 0 ->
  sop_step w tr g op = (g', tr', m) -> g' = g /\ m_TID m = m_TID (sop_msg op).
Proof.
  intros w tr g op g' tr' m N H. apply sop_step_tid in H. unfold assign_TID in H.
  replace (m_TID (sop_msg op) =? 0) with false in H by lia. exact H.
Qed.

Lemma L_C38_initial : forall (PS : PySet) c r s, new_local c r = (s, Ok tt) -> g_tid (ln_mgr s) = 0.
Proof.
  intros PS controller r s. unfold new_local. destruct (new_node_profile r) as [o [[]|e]]; [|discriminate].
  unfold update_profile. cbn [ln_prof ln_objs ln_node n_objs].
  destruct (zget NODE_PROFILE_CODE [(o_code o, o)]) as [p|]; [|intros [= <-]; reflexivity].
  destruct (np_update_map _ p) as [p' [b|e]]; [|discriminate]. intros [= <-]. reflexivity.
Qed.
