(** Further lemmas for C02, C14, C42. *)
From Verif Require Import PyBase BytesM EsvM MsgM PropM ObjM NodeM SpecWire SpecHex SpecObj SpecNode DictP BytesP WireP CodecP ObjP ReqP NodeP.

Lemma L_C02_hexstring : forall m s, (forall b, hex_text s b -> parse_hexstring m s = parse_bytes m b) /\
  ((~ exists b, hex_text s b) -> parse_hexstring m s = (m, Err ValueError)).
Proof.
  intros m s. destruct (L_C02_from_string s) as [A B]. unfold parse_hexstring. split.
  - intros b H. apply A in H. now rewrite H.
  - intros H. now rewrite (B H).
Qed.

(** ** C14 *)
Lemma L_C14_results : forall h code,
  let o := table_run h (new_object PNone) in
  let known := exists p, In (TAdd p) h /\ op_code p = code in
  (forall data, (snd (set_property_data code data o) = true <-> known) /\
                (snd (set_property_data code data o) = false -> fst (set_property_data code data o) = o)) /\
  (forall v n, n < 0 -> set_property_integer code v n o = (o, Err ValueError)) /\
  (forall v n, 0 <= n -> (snd (set_property_integer code v n o) = Ok true <-> known) /\
                         (~ known -> set_property_integer code v n o = (o, Ok false))).
Proof.
  intros h code o known. destruct (L_C14_table_is_map h) as (G & _ & Hk & _). fold o in G, Hk. specialize (Hk code). fold known in Hk.
  assert (S : forall data, set_property_data code data o = match get_property code o with None => (o, false) | Some p => (set_o_props (zset code (set_op_data data p) (o_props o)) o, true) end) by reflexivity.
  unfold has_property in Hk. split; [|split].
  - intros data. rewrite S. destruct (get_property code o) as [p|]; cbn [isSome fst snd] in *; split; try tauto. intros X. discriminate X.
  - intros v n N. unfold set_property_integer, from_int. destruct (Z.ltb_spec n 0); [reflexivity|lia].
  - intros v n N. unfold set_property_integer, from_int. destruct (Z.ltb_spec n 0); [lia|]. rewrite S. destruct (get_property code o) as [p|]; cbn [isSome fst snd] in *.
    + split; [tauto|]. intros X. tauto.
    + split; [|reflexivity]. split; [discriminate|]. intros X. apply Hk in X. discriminate X.
Qed.
Definition keyed (d : list (Z * oprop)) : Prop := Forall (fun kv => fst kv = op_code (snd kv)) d.
Lemma keyed_set k p d : op_code p = k -> keyed d -> keyed (zset k p d).
Proof.
  intros E. unfold keyed. induction d as [|[a b] d IH]; intros H; cbn [dset]; [repeat constructor; auto|]. inversion_clear H as [|? ? H1 H2]. destruct (Z.eqb_spec k a) as [->|]; constructor; auto.
Qed.
Lemma keyed_get k p d : keyed d -> zget k d = Some p -> op_code p = k.
Proof. intros H G. apply zget_in in G. unfold keyed in H. rewrite Forall_forall in H. apply H in G. cbn in G. congruence. Qed.
Lemma keyed_data code data o : keyed (o_props o) -> keyed (o_props (fst (set_property_data code data o))).
Proof.
  intros K. unfold set_property_data, get_property. destruct (zget code (o_props o)) as [p|] eqn:E; [|exact K]. cbn [fst]. apply keyed_set; [|exact K]. exact (keyed_get _ _ _ K E).
Qed.
Lemma keyed_step o op : keyed (o_props o) -> keyed (o_props (table_step o op)).
Proof.
  intros K. destruct op as [p|c d|c v n]; cbn [table_step].
  - cbn. now apply keyed_set.
  - now apply keyed_data.
  - unfold set_property_integer. destruct (from_int v n) as [b|]; [|exact K]. pose proof (keyed_data c b o K) as X. destruct (set_property_data c b o). exact X.
Qed.
Lemma keyed_run h : forall o, keyed (o_props o) -> keyed (o_props (table_run h o)).
Proof. unfold table_run. induction h as [|op h IH]; intros o K; [exact K|]. cbn. apply IH. now apply keyed_step. Qed.
Lemma copy_fold l : forall acc, NoDup (dkeys (o_props acc ++ l)) -> keyed l ->
  o_props (fold_left (fun acc p => fst (add_property_base (Some p) acc)) (dvals l) acc) = o_props acc ++ l.
Proof.
  induction l as [|[k p] l IH]; intros acc N K; cbn [dvals map snd fold_left]; [now rewrite app_nil_r|].
  inversion_clear K as [|? ? K1 K2]. cbn in K1. subst k.
  assert (E : o_props (fst (add_property_base (Some p) acc)) = o_props acc ++ [(op_code p, p)]).
  { cbn. assert (X : ~ In (op_code p) (dkeys (o_props acc))).
    { unfold dkeys in *. rewrite map_app in N. cbn [map fst] in N. apply NoDup_remove_2 in N. intros I. apply N. apply in_or_app. now left. }
    clear - X. induction (o_props acc) as [|[a b] d IH]; [reflexivity|]. cbn [dset]. destruct (Z.eqb_spec (op_code p) a) as [Ea|]; [exfalso; apply X; unfold dkeys; cbn [map fst]; rewrite Ea; left; reflexivity|]. cbn. rewrite IH; [reflexivity|]. intros I. apply X. unfold dkeys in *; cbn [map fst]. right; exact I. }
  fold (dvals l). rewrite IH; [rewrite E, <- app_assoc; reflexivity| |exact K2]. rewrite E, <- app_assoc. exact N.
Qed.
Lemma fold_fields l : forall acc, let o := fold_left (fun acc p => fst (add_property_base (Some p) acc)) l acc in
  o_code o = o_code acc /\ o_name o = o_name acc /\ o_handler o = o_handler acc /\ o_obs o = o_obs acc /\ o_cls o = o_cls acc.
Proof. induction l as [|p l IH]; intros acc; [repeat split|]. cbn [fold_left]. exact (IH _). Qed.
Lemma L_C14_copy : forall h c nm hd ob,
  (* an object with any code, name, handler and observers, after any history *)
  let o := set_o_obs ob (set_o_handler hd (set_o_name nm (set_o_code c (table_run h (new_object PNone))))) in
  let o' := copy_object o in
  o_code o' = c /\ o_name o' = nm /\ o_props o' = o_props o /\ o_handler o' = HNone /\ o_obs o' = [].
Proof.
  intros h c nm hd ob o o'. destruct (fold_fields (dvals (o_props o)) (set_o_name (o_name o) (set_o_code (o_code o) (new_object PNone)))) as (A & B & C & D & _).
  split; [exact A|]. split; [exact B|]. split; [|split; [exact C|exact D]].
  unfold o', copy_object. rewrite copy_fold; [reflexivity| |].
  - cbn [set_o_name set_o_code new_object o_props app]. destruct (L_C14_table_is_map h) as (_ & _ & _ & _ & N & _). exact N.
  - apply (keyed_run h (new_object PNone)). constructor.
Qed.

(** ** C42: Object.add_observer *)
Lemma obs_fold ns : forall o, fold_left (fun o n => fst (obj_add_observer n o)) ns o =
  set_o_obs (fold_left (fun l n => fst (subject_add n l)) ns (o_obs o)) o.
Proof.
  induction ns as [|n ns IH]; intros o; cbn [fold_left]; [now destruct o|]. rewrite IH. unfold obj_add_observer.
  destruct (subject_add n (o_obs o)) as [l r]. reflexivity.
Qed.
Lemma nat_eqb_ok : forall a b : nat, Nat.eqb a b = true <-> a = b.
Proof. exact Nat.eqb_eq. Qed.
Lemma subj_firsts ns : fold_left (fun l n => fst (subject_add n l)) ns [] = firsts Nat.eqb ns.
Proof.
  induction ns as [|n ns IH] using rev_ind; [reflexivity|]. rewrite fold_left_app. cbn [fold_left]. rewrite IH, (firsts_snoc Nat.eqb nat_eqb_ok).
  unfold subject_add. replace (existsb (Nat.eqb n) (firsts Nat.eqb ns)) with (existsb (Nat.eqb n) ns).
  - destruct (existsb (Nat.eqb n) ns); [now rewrite ?app_nil_r|reflexivity].
  - apply eq_true_iff_eq. rewrite !existsb_exists. split; intros (y & Y & E); exists y; (split; [|exact E]); now apply (firsts_in Nat.eqb nat_eqb_ok).
Qed.
Lemma L_C42_object : forall ns o req, o_obs o = [] ->
  let o' := fold_left (fun o n => fst (obj_add_observer n o)) ns o in
  snd (fst (obj_message_received o' req)) = firsts Nat.eqb ns /\ NoDup (firsts Nat.eqb ns) /\
  (forall n, In n (firsts Nat.eqb ns) <-> In n ns) /\ (forall n x, snd (obj_add_observer n x) = true) /\
  o_code o' = o_code o /\ o_name o' = o_name o /\ o_props o' = o_props o /\ o_handler o' = o_handler o.
Proof.
  intros ns o req E o'. assert (O : o' = set_o_obs (firsts Nat.eqb ns) o) by (unfold o'; rewrite obs_fold, E, subj_firsts; reflexivity).
  split; [|split; [apply (firsts_nodup Nat.eqb nat_eqb_ok)|split; [intros; apply (firsts_in Nat.eqb nat_eqb_ok)|split; [|rewrite O; repeat split]]]].
  - rewrite O. unfold obj_message_received. cbn [set_o_obs o_obs o_handler].
    repeat match goal with |- context[match ?x with _ => _ end] => destruct x end; reflexivity.
  - intros n x. unfold obj_add_observer, subject_add. destruct (existsb (Nat.eqb n) (o_obs x)); reflexivity.
Qed.

(** ** C65: requests of an object of a found device go to port 3610 of the device, whatever port it announced from *)
From Verif Require Import DbData DbM LocalM CtrlM SpecReq SpecProf SpecLocal SpecCtrl CtrlP.
Lemma L_C65_port_partial : forall w tr s c n o esv ps ip port, ln_ctl s = Some c -> byte_ok esv -> two_blocks esv = false -> fits_list ps ->
  0 <= g_tid (ln_mgr s) <= 65535 -> n_addr n = Some (ip, port) ->
  let bytes := request_bytes (g_tid (ln_mgr s) mod 65535 + 1) (o_code o) esv ps in
  (forall s' tr' r, object_send w tr s n o esv (pairs ps) = (s', tr', r) ->
     exists evs, tr' = tr ++ evs /\ tries bytes (ip, 3610) (open_ifs s) (sent evs)) /\
  (forall s' tr' m' r, object_post w tr s n o esv (pairs ps) = (s', tr', m', r) ->
     exists evs, tr' = tr ++ evs /\ tries bytes (ip, 3610) (open_ifs s) (sent evs)).
Proof.
  intros w tr s c n o esv ps ip port C B T F G A bytes. assert (E : (ip, 3610) = (node_ip n, node_port n)) by (unfold node_ip, node_port; rewrite A; reflexivity). rewrite E. split.
  - intros s' tr' r Q. destruct (L_C65_send_partial _ _ _ _ _ _ _ _ _ _ _ C B T F G Q) as (evs & H1 & _ & H2 & _). exists evs. split; assumption.
  - intros s' tr' m' r Q. destruct (L_C65_post_partial _ _ _ _ _ _ _ _ _ _ _ _ C B T F G Q) as (evs & _ & _ & H1 & _ & H2 & _). exists evs. split; assumption.
Qed.

(** Observers of the servers, and listeners. *)
Lemma existsb_firsts n ns : existsb (obs_eqb (OUser n)) (ONode :: map OUser (firsts Nat.eqb ns)) = existsb (Nat.eqb n) ns.
Proof.
  cbn [existsb obs_eqb orb]. destruct (existsb (Nat.eqb n) ns) eqn:X.
  - apply existsb_exists in X. destruct X as (k & K & E). apply Nat.eqb_eq in E. subst k. apply existsb_exists. exists (OUser n).
    split; [apply in_map, (firsts_in Nat.eqb Nat.eqb_eq); exact K|apply Nat.eqb_refl].
  - destruct (existsb (obs_eqb (OUser n)) (map OUser (firsts Nat.eqb ns))) eqn:Y; [|reflexivity]. apply existsb_exists in Y. destruct Y as (o & K & E).
    apply in_map_iff in K. destruct K as (k & <- & K). cbn [obs_eqb] in E. apply Nat.eqb_eq in E. subst k. apply (proj1 (firsts_in Nat.eqb Nat.eqb_eq _ _)) in K.
    exfalso. enough (true = false) by discriminate. rewrite <- X. symmetry. apply existsb_exists. exists n. split; [exact K|apply Nat.eqb_refl].
Qed.
Lemma L_C42_servers : forall ns s, Forall (fun v => s_obs v = [ONode]) (g_servers (ln_mgr s)) ->
  let s' := fold_left (fun s n => local_add_observer (OUser n) s) ns s in
  g_servers (ln_mgr s') = map (fun v => mksrv (s_uni v) (s_if v) (s_open v) (s_alive v) (ONode :: map OUser (firsts Nat.eqb ns))) (g_servers (ln_mgr s)) /\
  g_tid (ln_mgr s') = g_tid (ln_mgr s) /\ ln_node s' = ln_node s /\ ln_ctl s' = ln_ctl s.
Proof.
  intros ns s F s'. unfold s'. clear s'. induction ns as [|n ns IH] using rev_ind.
  - cbn [fold_left]. split; [|split; [reflexivity|split; reflexivity]]. rewrite <- (map_id (g_servers (ln_mgr s))) at 1. apply map_ext_in. intros v V. pose proof (proj1 (Forall_forall _ _) F v V) as E. cbv beta in E.
    destruct v as [u i o a obs]. cbn [s_obs s_uni s_if s_open s_alive] in *. subst obs. reflexivity.
  - rewrite fold_left_app. cbn [fold_left]. destruct IH as (I1 & I2 & I3 & I4). unfold local_add_observer at 1 3 5 7.
    split; [|split; [exact I2|split; [exact I3|exact I4]]]. change (map (server_add_observer (OUser n)) (g_servers (ln_mgr (fold_left (fun s n => local_add_observer (OUser n) s) ns s))) = map (fun v => mksrv (s_uni v) (s_if v) (s_open v) (s_alive v) (ONode :: map OUser (firsts Nat.eqb (ns ++ [n])))) (g_servers (ln_mgr s))).
    rewrite I1, map_map. apply map_ext. intros v. unfold server_add_observer. cbn [s_uni s_if s_open s_alive s_obs]. unfold subj_add. rewrite existsb_firsts, (firsts_snoc Nat.eqb Nat.eqb_eq).
    destruct (existsb (Nat.eqb n) ns); cbn [fst]; [reflexivity|]. rewrite map_app. reflexivity.
Qed.
Lemma remove_first_spec l ls : (forall a b, ls = a ++ l :: b -> ~ In l a -> remove_first l ls = Some (a ++ b)) /\ (~ In l ls -> remove_first l ls = None).
Proof.
  induction ls as [|x ls (IH1 & IH2)]; cbn [remove_first].
  - split; [intros [|y a] b E; discriminate E|reflexivity].
  - split.
    + intros [|y a] b E N; cbn [app] in *.
      * assert (x = l) as -> by congruence. rewrite Nat.eqb_refl. assert (ls = b) as -> by congruence. reflexivity.
      * assert (x = y) as -> by congruence. destruct (Nat.eqb_spec l y) as [->|_]; [destruct N; left; reflexivity|]. rewrite (IH1 a b); [reflexivity|congruence|]. intros K. apply N. right. exact K.
    + intros N. destruct (Nat.eqb_spec l x) as [->|_]; [destruct N; left; reflexivity|]. rewrite IH2; [reflexivity|]. intros K. apply N. right. exact K.
Qed.
Lemma L_C77_listeners : forall c l,
  add_listener l c = mkctl (c_found c) (c_req c) (c_resp c) (c_listeners c ++ [l]) /\
  (forall a b, c_listeners c = a ++ l :: b -> ~ In l a -> remove_listener l c = (mkctl (c_found c) (c_req c) (c_resp c) (a ++ b), Ok tt)) /\
  (~ In l (c_listeners c) -> remove_listener l c = (c, Err ValueError)).
Proof.
  intros c l. destruct (remove_first_spec l (c_listeners c)) as (A & B). split; [reflexivity|]. split.
  - intros a b E N. unfold remove_listener. rewrite (A a b E N). reflexivity.
  - intros N. unfold remove_listener. rewrite (B N). reflexivity.
Qed.
