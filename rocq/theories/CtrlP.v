(** Lemmas for C45, C46, C48-C50, C61. *)
From Verif Require Import PyBase BytesM EsvM MsgM PropM ObjM DbData DbM NodeM LocalM CtrlM
  SpecWire SpecObj SpecReq SpecDb SpecNode SpecProf SpecLocal SpecCtrl DictP BytesP WireP CodecP ObjP MapP ReqP DbP NodeP ProfP LocalP AnswerP.
Require Import ZifyBool.

Lemma seqb_eq a b : String.eqb a b = true <-> a = b.
Proof. apply String.eqb_eq. Qed.

(** ** Instance lists *)
Lemma triples_be codes : Forall (fun c => 0 <= c < 2 ^ 24) codes -> triples (flat_map (be 3) codes) = codes.
Proof.
  induction 1 as [|c codes H _ IH]; [reflexivity|]. cbn [flat_map].
  change (be 3 c) with [(c / 256 ^ Z.of_nat 2) mod 256; (c / 256 ^ Z.of_nat 1) mod 256; (c / 256 ^ Z.of_nat 0) mod 256].
  cbn [app triples]. rewrite IH. f_equal.
  change (be_val (be 3 c) = c). rewrite be_val_be. apply Z.mod_small. exact H.
Qed.
Lemma be_triples k : forall r, bytes_ok r -> length r = (3 * k)%nat ->
  flat_map (be 3) (triples r) = r /\ length (triples r) = k /\ Forall (fun c => 0 <= c < 2 ^ 24) (triples r).
Proof.
  induction k as [|k IH]; intros r B L.
  - destruct r; [|discriminate]. repeat split; constructor.
  - destruct r as [|a [|b [|c r]]]; cbn [length] in L; try lia. unfold bytes_ok in B.
    change (a :: b :: c :: r) with ([a; b; c] ++ r) in B. apply Forall_app in B. destruct B as (B3 & Br).
    destruct (IH r Br) as (F & L' & R); [lia|]. cbn [triples flat_map].
    pose proof (be_be_val [a; b; c] B3) as E. change (length [a; b; c]) with 3%nat in E. rewrite E, F. split; [reflexivity|].
    split; [cbn [length]; lia|]. constructor; [|exact R]. pose proof (be_val_bound [a; b; c] B3) as H. exact H.
Qed.

Lemma L_C45_instance_list : forall d codes, bytes_ok d ->
  (instance_list d = Some codes <->
   (exists tail, d = zlen codes :: flat_map (be 3) codes ++ tail) /\ Forall (fun c => 0 <= c < 2 ^ 24) codes).
Proof.
  intros d codes B. unfold instance_list. destruct d as [|n r]; [split; [discriminate|intros ((t & H) & _); discriminate]|].
  inversion B as [|? ? Hn Hr]; subst. unfold byte_ok in Hn. split.
  - destruct (Z.leb_spec (3 * n) (zlen r)) as [L|]; [|discriminate]. intros H; assert (Hc : codes = triples (firstn (3 * Z.to_nat n) r)) by congruence; clear H; subst codes.
    assert (Lf : length (firstn (3 * Z.to_nat n) r) = (3 * Z.to_nat n)%nat) by (rewrite firstn_length; unfold zlen in L; lia).
    assert (Bf : bytes_ok (firstn (3 * Z.to_nat n) r)).
    { unfold bytes_ok in *. rewrite <- (firstn_skipn (3 * Z.to_nat n) r) in Hr. apply Forall_app in Hr. apply Hr. }
    destruct (be_triples (Z.to_nat n) _ Bf Lf) as (E & Le & R). split; [|exact R].
    exists (skipn (3 * Z.to_nat n) r). rewrite E, firstn_skipn. f_equal. unfold zlen. lia.
  - intros ((t & E) & R). assert (En : n = zlen codes) by congruence. assert (Er : r = flat_map (be 3) codes ++ t) by congruence. clear E. subst n r. pose proof (be3_length codes) as L3. unfold zlen in *. rewrite app_length.
    destruct (Z.leb_spec (3 * Z.of_nat (length codes)) (Z.of_nat (length (flat_map (be 3) codes) + length t))) as [L|L]; [|lia].
    f_equal. rewrite Nat2Z.id. replace (3 * length codes)%nat with (length (flat_map (be 3) codes) + 0)%nat by (clear - L3; lia).
    rewrite firstn_app_2. cbn [firstn]. rewrite app_nil_r. now apply triples_be.
Qed.

(** ** RemoteNode *)
Section WithSet.
Context {PS : PySet}.

Definition std_obj (c : Z) : obj := fst (new_standard (PInt c)).
Lemma std_obj_ok c : new_standard (PInt c) = (std_obj c, Ok tt) /\ o_code (std_obj c) = c.
Proof.
  destruct (L_C56_standard_properties PS (PInt c) c eq_refl) as (o & E & C & _). unfold std_obj. rewrite E. auto.
Qed.
Opaque new_standard std_obj.
(** A node whose table holds fresh standard objects. *)
Definition add_std (l : list Z) (n : node) : node := fold_left (fun n c => fst (node_add_object (Some (std_obj c)) n)) l n.

Lemma new_remote_eq a : new_remote a = (add_std [0x0EF001] (new_node a), Ok tt).
Proof. unfold new_remote. rewrite (proj1 (std_obj_ok 0x0EF001)). reflexivity. Qed.

Lemma slice_triple data n r a b c : data = n :: r -> forall k, skipn (3 * k) r = a :: b :: c :: skipn (3 * S k) r ->
  py_slice data (3 * k + 1) (3 * k + 1 + 3) = [a; b; c].
Proof.
  intros -> k H. unfold py_slice. replace (3 * k + 1 + 3 - (3 * k + 1))%nat with 3%nat by lia.
  replace (3 * k + 1)%nat with (S (3 * k)) by lia. cbn [skipn]. rewrite H. reflexivity.
Qed.
Lemma skipn_cut k (r : list Z) : (3 * S k <= length r)%nat ->
  exists a b c, skipn (3 * k) r = a :: b :: c :: skipn (3 * S k) r.
Proof.
  intros H. pose proof (skipn_length (3 * k) r) as L. destruct (skipn (3 * k) r) as [|a [|b [|c q]]] eqn:E; cbn [length] in L; try lia.
  exists a, b, c. assert (Q : skipn 3 (skipn (3 * k) r) = skipn (3 * S k) r) by (rewrite skipn_skipn; f_equal; lia).
  rewrite E in Q. cbn [skipn] in Q. rewrite <- Q. reflexivity.
Qed.
Lemma parse_objects_ok x r k : forall n nd, (3 * (n + k) <= length r)%nat ->
  parse_objects (x :: r) k n nd = (add_std (triples (firstn (3 * k) (skipn (3 * n) r))) nd, Ok tt).
Proof.
  induction k as [|k IH]; intros n nd H; [reflexivity|]. cbn [parse_objects].
  destruct (skipn_cut n r) as (a & b & c & E); [lia|]. rewrite (slice_triple _ _ r a b c eq_refl n E).
  rewrite (proj1 (std_obj_ok _)). rewrite IH by lia. rewrite E. replace (3 * S k)%nat with (S (S (S (3 * k)))) by lia.
  cbn [firstn triples]. rewrite to_int_be_val. replace (S n) with (n + 1)%nat by lia. reflexivity.
Qed.

Lemma remote_parse_eq m nd : typed m -> remote_parse m nd =
  if empty_list m then (nd, Err IndexError)
  else match carries_list m with Some codes => (add_std codes nd, Ok true) | None => (nd, Ok false) end.
Proof.
  intros (T & _). unfold remote_parse, OPC, empty_list, carries_list, list_property. destruct (m_props m) as [|p ps]; [reflexivity|].
  assert (L : zlen (p :: ps) <? 1 = false) by (unfold zlen; cbn [length]; lia). rewrite L.
  rewrite <- negb_orb. destruct ((p_code p =? 0xD5) || (p_code p =? 0xD6)); cbn [negb andb]; [|reflexivity].
  assert (B : bytes_ok (p_data p)) by (inversion T; assumption).
  destruct (p_data p) as [|n r] eqn:D; [reflexivity|]. cbn [py_index nth_error instance_list].
  inversion B as [|? ? Hn Hr]; subst. unfold byte_ok in Hn.
  assert (C : (zlen (n :: r) <? n * 3 + 1) = negb (3 * n <=? zlen r)) by (unfold zlen; cbn [length]; lia). rewrite C.
  destruct (Z.leb_spec (3 * n) (zlen r)) as [H|H]; cbn [negb]; [|reflexivity].
  rewrite parse_objects_ok by (unfold zlen in H; lia). reflexivity.
Qed.

Lemma add_std_addr l : forall n, n_addr (add_std l n) = n_addr n.
Proof. induction l as [|c l IH]; intros n; [reflexivity|]. cbn [add_std fold_left]. fold (add_std l). rewrite IH. reflexivity. Qed.
Lemma add_std_run l n : add_std l n = add_run (map (fun c => Some (std_obj c)) l) n.
Proof. revert n. induction l as [|c l IH]; intros n; [reflexivity|]. cbn [add_std fold_left map add_run]. fold (add_std l). rewrite IH. reflexivity. Qed.
Lemma added_std l : added_codes (map (fun c => Some (std_obj c)) l) = l.
Proof. unfold added_codes. induction l as [|c l IH]; [reflexivity|]. cbn [map flat_map app]. rewrite (proj2 (std_obj_ok c)). f_equal. exact IH. Qed.
Lemma add_std_get l : forall n k, zget k (n_objs (add_std l n)) = if existsb (Z.eqb k) l then Some (std_obj k) else zget k (n_objs n).
Proof.
  induction l as [|c l IH]; intros n k; [reflexivity|]. cbn [add_std fold_left]. fold (add_std l). rewrite IH. cbn [existsb].
  cbn [node_add_object fst n_objs]. rewrite (dget_dset Z.eqb zeqb_eq). rewrite (proj2 (std_obj_ok c)).
  destruct (existsb (Z.eqb k) l); [now rewrite orb_true_r|]. rewrite orb_false_r. destruct (Z.eqb_spec k c) as [->|]; reflexivity.
Qed.

(** The node that a message announces. *)
Definition found_node (a : addr) (codes : list Z) : node := add_std (0x0EF001 :: codes) (new_node (Some a)).
Lemma found_node_spec a codes : let n := found_node a codes in
  n_addr n = Some a /\ dkeys (n_objs n) = firsts Z.eqb (0x0EF001 :: codes) /\
  map o_code (node_objects n) = firsts Z.eqb (0x0EF001 :: codes) /\
  (forall k o, zget k (n_objs n) = Some o -> new_standard (PInt k) = (o, Ok tt)) /\
  zget 0x0EF001 (n_objs n) = Some (std_obj 0x0EF001).
Proof.
  intros n. split; [apply add_std_addr|].
  assert (K : dkeys (n_objs n) = firsts Z.eqb (0x0EF001 :: codes)).
  { unfold n, found_node. rewrite add_std_run, add_run_keys by reflexivity. rewrite added_std. reflexivity. }
  split; [exact K|].
  assert (G : forall k o, zget k (n_objs n) = Some o -> o = std_obj k).
  { intros k o. unfold n, found_node. rewrite add_std_get. destruct (existsb _ _); [congruence|discriminate]. }
  split; [|split].
  - rewrite <- K. unfold node_objects. assert (N : NoDup (dkeys (n_objs n))) by (rewrite K; apply (firsts_nodup Z.eqb zeqb_eq)).
    revert N G. generalize (n_objs n). intros d N G. unfold dvals, dkeys. rewrite map_map. apply map_ext_in. intros (k, o) H.
    cbn [fst snd]. apply (in_dget Z.eqb zeqb_eq) in H; [|exact N]. apply G in H. subst o. apply std_obj_ok.
  - intros k o H. rewrite (G k o H). apply std_obj_ok.
  - unfold n, found_node. rewrite add_std_get. reflexivity.
Qed.
End WithSet.

Lemma L_C45_parse_partial : forall (PS : PySet) a m, typed m -> empty_list m = false ->
  exists n, new_remote (Some a) = (n, Ok tt) /\ map o_code (node_objects n) = [0x0EF001] /\
  exists n', remote_parse m n = (n', Ok (isSome (carries_list m))) /\ n_addr n' = Some a /\
  match carries_list m with
  | Some codes => map o_code (node_objects n') = firsts Z.eqb (0x0EF001 :: codes) /\
                  forall k o, get_object (PInt k) n' = Some o -> new_standard (PInt k) = (o, Ok tt)
  | None => n' = n
  end.
Proof.
  intros PS a m T E. eexists. split; [apply new_remote_eq|]. split.
  - destruct (found_node_spec a []) as (_ & _ & X & _). exact X.
  - rewrite remote_parse_eq by exact T. rewrite E. destruct (carries_list m) as [codes|].
    + destruct (found_node_spec a codes) as (A & _ & X & Y & _). eexists. split; [reflexivity|]. split; [exact A|]. split; [exact X|exact Y].
    + eexists. split; [reflexivity|]. split; [apply (add_std_addr [0x0EF001])|reflexivity].
Qed.

(** Finding: an instance list property without data raises. *)
Lemma L_C45_parse_refuted : forall (PS : PySet) m n, typed m -> empty_list m = true -> remote_parse m n = (n, Err IndexError).
Proof. intros PS m n T E. rewrite remote_parse_eq by exact T. rewrite E. reflexivity. Qed.

(** ** Recording data *)
Lemma store_get c d o k : get_property k (store c d o) =
  if c =? k then match get_property k o with Some q => Some (set_op_data d q) | None => None end else get_property k o.
Proof.
  unfold store. rewrite set_property_data_get. destruct (Z.eqb_spec c k) as [->|]; [|reflexivity]. destruct (get_property k o); reflexivity.
Qed.
Lemma store_same c q o : get_property c o = Some q -> store c (op_data q) o = o.
Proof.
  intros H. unfold store, set_property_data. rewrite H. cbn [fst]. unfold get_property in H.
  assert (E : set_op_data (op_data q) q = q) by (destruct q; reflexivity). rewrite E.
  rewrite (dset_id Z.eqb) by exact H. destruct o; reflexivity.
Qed.
Fixpoint record_all (o : obj) (ps : list prop) : obj :=
  match ps with [] => o | p :: r => record_all (store (p_code p) (p_data p) o) r end.
Lemma record_all_records ps : forall o, records ps o (record_all o ps).
Proof.
  induction ps as [|p ps IH]; intros o; cbn [record_all last_data].
  - split; [reflexivity|]. split; [reflexivity|]. intros c. destruct (get_property c o); reflexivity.
  - destruct (IH (store (p_code p) (p_data p) o)) as (A & B & C). destruct (store_keeps (p_code p) (p_data p) o) as (S1 & S2).
    split; [congruence|]. split; [congruence|]. intros c. rewrite C, store_get. cbn [last_data].
    destruct (Z.eqb_spec (p_code p) c) as [<-|N].
    + destruct (get_property (p_code p) o) as [q|]; [|reflexivity]. destruct (last_data (p_code p) ps); reflexivity.
    + destruct (get_property c o) as [q|]; [|reflexivity]. destruct (last_data c ps); reflexivity.
Qed.

(** ** Listener calls that do not raise *)
Lemma calls_quiet w evs : quiet w -> forall tr, calls w tr evs = (tr ++ evs, Ok tt).
Proof.
  intros Q. induction evs as [|e evs IH]; intros tr; cbn [calls call]; [now rewrite app_nil_r|].
  rewrite Q, IH, <- app_assoc. reflexivity.
Qed.

Lemma same_bytes_eq a b : same_bytes a b = bytes_eqb a b.
Proof.
  unfold same_bytes. destruct (list_eq_dec Z.eq_dec a b) as [->|N]; symmetry; [now apply bytes_eqb_eq|].
  destruct (bytes_eqb a b) eqn:E; [|reflexivity]. apply bytes_eqb_eq in E. contradiction.
Qed.
Lemma changed_ext f g ps : (forall c, f c = g c) -> changed f ps = changed g ps.
Proof.
  revert f g. induction ps as [|p ps IH]; intros f g H; [reflexivity|]. cbn [changed]. rewrite H.
  destruct (g (p_code p)) as [d|]; [|now apply IH]. destruct (same_bytes d (p_data p)); [now apply IH|]. f_equal. apply IH.
  intros c. destruct (c =? p_code p); auto.
Qed.

(** The property_updated calls of _update_properties. *)
Fixpoint upd_events (ls : list nat) (key : Z) (n : node) (o : obj) (ps : list prop) : trace :=
  match ps with
  | [] => []
  | p :: r =>
      match get_property (p_code p) o with
      | None => upd_events ls key n o r
      | Some q =>
          if bytes_eqb (op_data q) (p_data p) then upd_events ls key n o r
          else let o' := store (p_code p) (p_data p) o in let n' := put_node_obj key o' n in
            map (fun l => EvPropUpd l n' o' (set_op_data (p_data p) q)) ls ++ upd_events ls key n' o' r
      end
  end.

Lemma update_loop_eq w c key ps : quiet w -> forall tr n o u, zget key (n_objs n) = Some o ->
  update_loop w tr c key n o ps u =
  (put_node_obj key (record_all o ps) n, record_all o ps, tr ++ upd_events (c_listeners c) key n o ps,
   Ok (u || negb (match changed (data_at o) ps with [] => true | _ => false end))).
Proof.
  intros Q. induction ps as [|p ps IH]; intros tr n o u Z.
  - cbn [update_loop record_all upd_events changed negb]. rewrite app_nil_r, orb_false_r.
    assert (E : put_node_obj key o n = n) by (unfold put_node_obj; rewrite (dset_id Z.eqb) by exact Z; destruct n; reflexivity).
    rewrite E. reflexivity.
  - cbn [update_loop record_all upd_events changed]. unfold data_at at 1.
    destruct (get_property (p_code p) o) as [q|] eqn:G; cbn [option_map].
    + rewrite same_bytes_eq. destruct (bytes_eqb (op_data q) (p_data p)) eqn:B.
      * apply bytes_eqb_eq in B. rewrite IH by exact Z. rewrite <- B, store_same by exact G. reflexivity.
      * cbv zeta. unfold notify_property_updated. rewrite calls_quiet by exact Q.
        rewrite IH by (unfold put_node_obj; cbn [n_objs]; rewrite (dget_dset Z.eqb zeqb_eq), Z.eqb_refl; reflexivity).
        rewrite <- app_assoc. cbn [orb negb].
        assert (P : forall o1 o2, put_node_obj key o1 (put_node_obj key o2 n) = put_node_obj key o1 n).
        { intros. unfold put_node_obj. cbn [n_addr n_objs]. rewrite (dset_dset_same Z.eqb zeqb_eq). reflexivity. }
        rewrite P, orb_true_r. reflexivity.
    + assert (E : store (p_code p) (p_data p) o = o) by (unfold store, set_property_data; rewrite G; reflexivity).
      rewrite E. now apply IH.
Qed.

Lemma get_node_tup w tr c ip : get_node w tr c (GATup ip) = Ok (sget ip (c_found c)).
Proof. unfold get_node. induction (c_found c) as [|[k n] d IH]; [reflexivity|]. cbn [get_node_loop dget]. destruct (String.eqb ip k); [reflexivity|apply IH]. Qed.

(** The node after recording, and the listener calls. *)
Definition rec_node (m : msg) (n : node) : node :=
  match zget (m_DEOJ m) (n_objs n) with Some o => put_node_obj (m_DEOJ m) (record_all o (m_props m)) n | None => n end.
Definition rec_events (ls : list nat) (m : msg) (n : node) : trace :=
  match zget (m_DEOJ m) (n_objs n) with
  | None => []
  | Some o =>
      upd_events ls (m_DEOJ m) n o (m_props m) ++
      match changed (data_at o) (m_props m) with
      | [] => []
      | _ => map (fun l => EvObjUpd l (rec_node m n) (record_all o (m_props m))) ls ++ map (fun l => EvNodeAdd l (rec_node m n)) ls
      end
  end.

Lemma update_properties_eq w tr c m a : quiet w -> m_from m = Some a ->
  update_properties w tr c m =
  match sget (fst a) (c_found c) with
  | None => (c, tr, Err AttributeError)
  | Some n => (set_found (sset (fst a) (rec_node m n) (c_found c)) c, tr ++ rec_events (c_listeners c) m n, Ok tt)
  end.
Proof.
  intros Q F. unfold update_properties, from_arg. rewrite F, get_node_tup. destruct (sget (fst a) (c_found c)) as [n|] eqn:G; [|reflexivity].
  unfold get_object. cbn [new_object set_code fst o_code]. unfold rec_node, rec_events.
  destruct (zget (m_DEOJ m) (n_objs n)) as [o|] eqn:Zo.
  2:{ rewrite (dset_id String.eqb) by exact G. rewrite app_nil_r. destruct c; reflexivity. }
  rewrite (update_loop_eq w c (m_DEOJ m) (m_props m) Q tr n o false Zo). cbn [orb].
  destruct (changed (data_at o) (m_props m)) as [|x xs]; cbn [negb].
  - rewrite app_nil_r. reflexivity.
  - unfold notify_object_updated, notify_node_updated. rewrite calls_quiet by exact Q. cbv iota beta zeta. rewrite calls_quiet by exact Q.
    cbn [c_listeners set_found]. rewrite <- !app_assoc.
    assert (RN : rec_node m n = put_node_obj (m_DEOJ m) (record_all o (m_props m)) n) by (unfold rec_node; rewrite Zo; reflexivity). rewrite RN. reflexivity.
Qed.

(** What the controller does with a response. *)
Definition post_step (m : msg) (c : ctl) : ctl :=
  match c_req c, c_resp c with
  | Some req, None => if m_TID req =? m_TID m then set_post (Some req) (Some m) c else c
  | _, _ => c
  end.
Definition from_profile (m : msg) : bool := (m_ESV m =? 0x72) || (m_ESV m =? 0x73).

Section WithSet2.
Context {PS : PySet}.
Definition announce_found (a : addr) (m : msg) (c : ctl) : ctl :=
  match announces m with Some codes => set_found (sset (fst a) (found_node a codes) (c_found c)) c | None => c end.
Definition announce_events (a : addr) (m : msg) (c : ctl) : trace :=
  match announces m with Some codes => map (fun l => EvNodeAdd l (found_node a codes)) (c_listeners c) | None => [] end.

Lemma ctl_response_eq w tr c a m : quiet w -> received_from a m -> is_request (m_ESV m) = false ->
  ctl_response w tr c m =
  if from_profile m && negb (m_DEOJ m =? 0x0EF001) then (c, tr, Err AttributeError)
  else if from_profile m && empty_list m then (c, tr, Err IndexError)
  else
    let c1 := announce_found a m c in let tr1 := tr ++ announce_events a m c in
    if from_profile m || (m_ESV m =? 0x7E) then
      match sget (fst a) (c_found c1) with
      | None => (c1, tr1, Err AttributeError)
      | Some n => (post_step m (set_found (sset (fst a) (rec_node m n) (c_found c1)) c1), tr1 ++ rec_events (c_listeners c) m n, Ok tt)
      end
    else (post_step m c1, tr1, Ok tt).
Proof.
  intros Q Hm NR. destruct (received_copy a m Hm) as (Cp & Fr). unfold ctl_response. rewrite Cp.
  assert (Ty : typed m) by (destruct Hm as (f & (_ & T & _) & ->); exact T).
  assert (UP : is_notification (m_ESV m) || is_read_response (m_ESV m) = from_profile m || (m_ESV m =? 0x7E)).
  { unfold is_notification, is_read_response, from_profile. unfold is_request in NR. 
    change NOTIFICATION with 0x73. change NOTIFICATION_RESPONSE_REQUIRED with 0x74. change READ_RESPONSE with 0x72. change WRITE_READ_RESPONSE with 0x7E.
    change NOTIFICATION_RESPONSE_REQUIRED with 0x74 in NR.
    destruct (m_ESV m =? 0x73), (m_ESV m =? 0x74), (m_ESV m =? 0x72), (m_ESV m =? 0x7E); try reflexivity;
    exfalso; repeat match goal with H : context [if ?x then _ else _] |- _ => destruct x end; discriminate. }
  rewrite UP.
  assert (PO : forall (c2 : ctl) (tr2 : trace), (if is_waiting c2 then match c_req c2 with
     | Some req => if is_response_message req m then (set_post (Some req) (Some m) c2, tr2, Ok tt) else (c2, tr2, Ok tt)
     | None => (c2, tr2, Ok tt) end else (c2, tr2, Ok tt)) = (post_step m c2, tr2, @Ok unit tt)).
  { intros c2 tr2. unfold is_waiting, post_step, is_response_message. destruct (c_req c2) as [q|]; [|reflexivity].
    destruct (c_resp c2); [reflexivity|]. destruct (m_TID q =? m_TID m); reflexivity. }
  assert (NPM : is_node_profile_message m = if from_profile m then if m_DEOJ m =? 0x0EF001 then Ok true else Err AttributeError else Ok false).
  { unfold is_node_profile_message, from_profile, NODE_PROFILE_CODE. change NOTIFICATION with 0x73. change READ_RESPONSE with 0x72.
    rewrite <- negb_orb, orb_comm. destruct ((m_ESV m =? 0x72) || (m_ESV m =? 0x73)); cbn [negb]; [|reflexivity]. destruct (m_DEOJ m =? 0x0EF001); reflexivity. }
  rewrite NPM. clear NPM. unfold announce_found, announce_events, announces. fold (from_profile m).
  destruct (from_profile m) eqn:FP; cbn [andb orb].
  - destruct (m_DEOJ m =? 0x0EF001) eqn:DE; cbn [negb]; [|reflexivity].
    rewrite Fr, new_remote_eq, remote_parse_eq by exact Ty. destruct (empty_list m); [reflexivity|].
    destruct (carries_list m) as [codes|].
    + change (add_std codes (add_std [0x0EF001] (new_node (Some a)))) with (found_node a codes). unfold add_found_node.
      pose proof (found_node_spec a codes) as (FA & _). assert (FI : node_ip (found_node a codes) = fst a) by (unfold node_ip; rewrite FA; reflexivity).
      rewrite FI. unfold notify_node_added, notify_node_updated. rewrite calls_quiet by exact Q.
      replace (match sget (fst a) (c_found c) with Some _ => _ | None => _ end) with (tr ++ map (fun l => EvNodeAdd l (found_node a codes)) (c_listeners c), @Ok unit tt) by (destruct (sget (fst a) (c_found c)); reflexivity).
      rewrite (update_properties_eq w _ _ m a Q Fr). cbn [c_found set_found].
      rewrite (dget_dset String.eqb seqb_eq), String.eqb_refl. rewrite PO. reflexivity.
    + rewrite (update_properties_eq w _ _ m a Q Fr). rewrite app_nil_r. destruct (sget (fst a) (c_found c)); [rewrite PO|]; reflexivity.
  - rewrite app_nil_r. destruct (m_ESV m =? 0x7E).
    + rewrite (update_properties_eq w _ _ m a Q Fr). destruct (sget (fst a) (c_found c)); [rewrite PO|]; reflexivity.
    + rewrite PO. reflexivity.
Qed.
End WithSet2.

(** ** One message, the node table *)
Lemma ctl_node_received (PS : PySet) w tr s c a m s' tr' r : ln_ctl s = Some c -> received_from a m ->
  node_received w tr s m = (s', tr', r) ->
  if is_request (m_ESV m) then ln_ctl s' = Some c
  else exists c', ctl_response w tr c m = (c', tr', r) /\ s' = set_ln_ctl (Some c') s.
Proof.
  intros C Hm. unfold node_received. rewrite C. unfold ctl_received. rewrite self_never, andb_false_r.
  unfold is_response. destruct (is_request (m_ESV m)) eqn:R; cbn [negb].
  - destruct (local_received_spec w tr s a m Hm) as (s1 & evs & r1 & E & L). rewrite E.
    assert (K : ln_ctl s1 = ln_ctl s).
    { unfold local_spec in L. destruct (zget (m_DEOJ m) (ln_objs s)) as [o|]; [|destruct L as (-> & _); reflexivity].
      destruct L as (oe & sn & _ & _ & [(_ & -> & _)|L]); [reflexivity|].
      destruct (obj_message_received o m) as [[o' t] x]. decompose [and ex] L. subst. reflexivity. }
    destruct r1; intros [= <- <- <-]; congruence.
  - rewrite C. destruct (ctl_response w tr c m) as [[c' t] x]. intros [= <- <- <-]. eauto.
Qed.

Lemma put_codes key o o' d : zget key d = Some o -> o_code o' = o_code o -> map o_code (dvals (zset key o' d)) = map o_code (dvals d).
Proof.
  induction d as [|[k v] d IH]; cbn [dget dset]; [discriminate|]. destruct (key =? k).
  - intros [= ->] E. cbn [dvals map snd]. f_equal. exact E.
  - intros H E. cbn [dvals map snd]. f_equal. now apply IH.
Qed.
Lemma rec_node_keeps m n : n_addr (rec_node m n) = n_addr n /\ map o_code (node_objects (rec_node m n)) = map o_code (node_objects n) /\
  (forall k, k <> m_DEOJ m -> zget k (n_objs (rec_node m n)) = zget k (n_objs n)) /\
  (forall o, zget (m_DEOJ m) (n_objs n) = Some o -> exists o', zget (m_DEOJ m) (n_objs (rec_node m n)) = Some o' /\ records (m_props m) o o') /\
  (zget (m_DEOJ m) (n_objs n) = None -> rec_node m n = n) /\
  (m_props m = [] -> rec_node m n = n).
Proof.
  unfold rec_node. destruct (zget (m_DEOJ m) (n_objs n)) as [o|] eqn:Zo.
  - pose proof (record_all_records (m_props m) o) as Rec. split; [reflexivity|]. split; [|split; [|split; [|split]]].
    + unfold node_objects, put_node_obj. cbn [n_objs]. apply (put_codes _ o); [exact Zo|apply Rec].
    + intros k N. unfold put_node_obj. cbn [n_objs]. rewrite (dget_dset Z.eqb zeqb_eq). destruct (Z.eqb_spec k (m_DEOJ m)); [contradiction|reflexivity].
    + intros o1 [= <-]. exists (record_all o (m_props m)). split; [|exact Rec].
      unfold put_node_obj. cbn [n_objs]. rewrite (dget_dset Z.eqb zeqb_eq), Z.eqb_refl. reflexivity.
    + discriminate.
    + intros ->. cbn [record_all]. unfold put_node_obj. rewrite (dset_id Z.eqb) by exact Zo. destruct n; reflexivity.
  - repeat split; auto. discriminate.
Qed.

(** Everything about the table after one message. *)
Definition like (n n' : node) : Prop := n_addr n' = n_addr n /\ map o_code (node_objects n') = map o_code (node_objects n).
Lemma post_found m c : c_found (post_step m c) = c_found c.
Proof. unfold post_step. destruct (c_req c), (c_resp c); try reflexivity. destruct (_ =? _); reflexivity. Qed.
Lemma post_listeners m c : c_listeners (post_step m c) = c_listeners c.
Proof. unfold post_step. destruct (c_req c), (c_resp c); try reflexivity. destruct (_ =? _); reflexivity. Qed.

Definition add_key (l : list string) (k : string) : list string := if existsb (String.eqb k) l then l else l ++ [k].
Lemma sset_keys {V} k (v : V) d : dkeys (sset k v d) = add_key (dkeys d) k.
Proof.
  rewrite dkeys_dset. unfold add_key. destruct (sget k d) as [x|] eqn:G; cbn [isSome].
  - assert (I : In k (dkeys d)) by (apply (dget_some String.eqb seqb_eq); eauto).
    replace (existsb (String.eqb k) (dkeys d)) with true; [reflexivity|]. symmetry. apply existsb_exists. exists k. split; [exact I|apply String.eqb_refl].
  - apply (dget_none String.eqb seqb_eq) in G. destruct (existsb (String.eqb k) (dkeys d)) eqn:X; [|reflexivity].
    apply existsb_exists in X. destruct X as (y & Y & E). apply seqb_eq in E. subst. contradiction.
Qed.
Lemma frame_7E a m : received_from a m -> m_ESV m = 0x7E -> m_props m = [].
Proof. intros (f & (_ & _ & E) & ->) H. cbn [set_from m_props m_ESV] in *. rewrite <- E. unfold carried. cbn [m_props]. rewrite H. reflexivity. Qed.

Lemma announces_profile m codes : announces m = Some codes -> from_profile m = true /\ m_DEOJ m = 0x0EF001 /\ empty_list m = false.
Proof.
  unfold announces. fold (from_profile m). destruct (from_profile m); [|discriminate]. cbn [andb].
  destruct (Z.eqb_spec (m_DEOJ m) 0x0EF001); [|discriminate]. intros H. repeat split; auto.
  unfold carries_list in H. unfold empty_list. destruct (m_props m) as [|p ps]; [reflexivity|]. destruct (list_property p); [|reflexivity].
  destruct (p_data p); [discriminate|reflexivity].
Qed.

Lemma found_step (PS : PySet) w tr c a m c' tr' r : quiet w -> received_from a m -> is_request (m_ESV m) = false ->
  ctl_response w tr c m = (c', tr', r) ->
  c_listeners c' = c_listeners c /\
  dkeys (c_found c') = match announces m with Some _ => add_key (dkeys (c_found c)) (fst a) | None => dkeys (c_found c) end /\
  (forall k, k <> fst a -> sget k (c_found c') = sget k (c_found c)) /\
  (forall n, match announces m with Some codes => n = found_node a codes | None => sget (fst a) (c_found c) = Some n end ->
     exists n', sget (fst a) (c_found c') = Some n' /\ (n' = n \/ (m_DEOJ m = 0x0EF001 /\ n' = rec_node m n))).
Proof.
  intros Q Hm NR. rewrite (ctl_response_eq w tr c a m Q Hm NR).
  destruct (from_profile m && negb (m_DEOJ m =? 0x0EF001)) eqn:X1.
  { assert (AN : announces m = None). { destruct (announces m) eqn:A; [|reflexivity]. apply announces_profile in A. destruct A as (A & B & _). rewrite A, B in X1. discriminate. }
    intros [= <- <- <-]. rewrite AN. split; [reflexivity|]. split; [reflexivity|]. split; [reflexivity|]. intros n H. exists n. auto. }
  destruct (from_profile m && empty_list m) eqn:X2.
  { assert (AN : announces m = None). { destruct (announces m) eqn:A; [|reflexivity]. apply announces_profile in A. destruct A as (A & _ & B). rewrite A, B in X2. discriminate. }
    intros [= <- <- <-]. rewrite AN. split; [reflexivity|]. split; [reflexivity|]. split; [reflexivity|]. intros n H. exists n. auto. }
  cbv zeta. set (c1 := announce_found a m c).
  assert (C1 : c_listeners c1 = c_listeners c /\ 
     dkeys (c_found c1) = match announces m with Some _ => add_key (dkeys (c_found c)) (fst a) | None => dkeys (c_found c) end /\
     (forall k, k <> fst a -> sget k (c_found c1) = sget k (c_found c)) /\
     (forall n, match announces m with Some codes => n = found_node a codes | None => sget (fst a) (c_found c) = Some n end -> sget (fst a) (c_found c1) = Some n)).
  { unfold c1, announce_found. destruct (announces m) as [codes|]; cbn [set_found c_found c_listeners].
    - split; [reflexivity|]. split; [apply sset_keys|]. split.
      + intros k N. rewrite (dget_dset String.eqb seqb_eq). destruct (String.eqb_spec k (fst a)); [contradiction|reflexivity].
      + intros n ->. rewrite (dget_dset String.eqb seqb_eq), String.eqb_refl. reflexivity.
    - repeat split; auto. }
  destruct C1 as (L1 & K1 & O1 & F1).
  destruct (from_profile m || (m_ESV m =? 0x7E)) eqn:X3.
  - destruct (sget (fst a) (c_found c1)) as [n0|] eqn:G.
    + intros [= <- <- <-]. rewrite post_found, post_listeners. cbn [set_found c_found c_listeners]. split; [exact L1|].
      split; [|split].
      * rewrite sset_keys, <- K1. unfold add_key. assert (I : In (fst a) (dkeys (c_found c1))) by (apply (dget_some String.eqb seqb_eq); eauto).
        replace (existsb (String.eqb (fst a)) (dkeys (c_found c1))) with true; [reflexivity|]. symmetry. apply existsb_exists. exists (fst a). split; [exact I|apply String.eqb_refl].
      * intros k N. rewrite (dget_dset String.eqb seqb_eq). destruct (String.eqb_spec k (fst a)); [contradiction|]. now apply O1.
      * intros n H. specialize (F1 n H). assert (n0 = n) by congruence. subst n0. rewrite (dget_dset String.eqb seqb_eq), String.eqb_refl.
        exists (rec_node m n). split; [reflexivity|]. destruct (from_profile m) eqn:FP.
        -- right. cbn [andb] in X1. destruct (Z.eqb_spec (m_DEOJ m) 0x0EF001); [auto|discriminate].
        -- left. cbn [orb] in X3. apply Z.eqb_eq in X3. apply rec_node_keeps. now apply (frame_7E a).
    + intros [= <- <- <-]. split; [exact L1|]. split; [exact K1|]. split; [exact O1|]. intros n H. pose proof (F1 n H). congruence.
  - intros [= <- <- <-]. rewrite post_found, post_listeners. split; [exact L1|]. split; [exact K1|]. split; [exact O1|]. intros n H. exists n. auto.
Qed.

(** ** C46 *)
Lemma firsts_fold l : firsts String.eqb l = fold_left add_key l [].
Proof.
  induction l as [|x l IH] using rev_ind; [reflexivity|]. rewrite (firsts_snoc String.eqb seqb_eq), fold_left_app. cbn [fold_left]. rewrite <- IH.
  unfold add_key. assert (E : existsb (String.eqb x) (firsts String.eqb l) = existsb (String.eqb x) l).
  { apply eq_true_iff_eq. rewrite !existsb_exists. split; intros (y & Y & E); exists y; (split; [|exact E]); now apply (firsts_in String.eqb seqb_eq). }
  rewrite E. reflexivity.
Qed.

Lemma history_table (PS : PySet) w ms : quiet w -> Forall (fun m => exists a, received_from a m) ms ->
  forall tr s c s' tr' rs, ln_ctl s = Some c -> received_all w tr s ms = (s', tr', rs) ->
  exists c', ln_ctl s' = Some c' /\ c_listeners c' = c_listeners c /\
  dkeys (c_found c') = fold_left add_key (announcers ms) (dkeys (c_found c)) /\
  forall ip, match last_list ip ms with
    | Some codes => exists n, sget ip (c_found c') = Some n /\ node_ip n = ip /\ map o_code (node_objects n) = firsts Z.eqb (0x0EF001 :: codes)
    | None => match sget ip (c_found c) with
              | Some n => exists n', sget ip (c_found c') = Some n' /\ like n n'
              | None => sget ip (c_found c') = None
              end
    end.
Proof.
  intros Q. induction ms as [|m ms IH]; intros F tr s c s' tr' rs C; cbn [received_all].
  - intros [= <- <- <-]. exists c. split; [exact C|]. split; [reflexivity|]. split; [reflexivity|]. intros ip. cbn [last_list].
    destruct (sget ip (c_found c)) as [n|]; [|reflexivity]. exists n. repeat split.
  - destruct (node_received w tr s m) as [[s1 tr1] r1] eqn:E. destruct (received_all w tr1 s1 ms) as [[s2 tr2] rs2] eqn:R. intros [= <- <- <-].
    pose proof (Forall_inv F) as (a & Hm). pose proof (ctl_node_received PS w tr s c a m s1 tr1 r1 C Hm E) as S.
    assert (Fr : from_ip m = fst a) by (unfold from_ip; destruct (received_copy a m Hm) as (_ & ->); reflexivity).
    destruct (is_request (m_ESV m)) eqn:NR.
    + destruct (IH (Forall_inv_tail F) _ _ _ _ _ _ S R) as (c' & C' & L & K & T). exists c'. split; [exact C'|]. split; [exact L|].
      assert (AN : announces m = None).
      { destruct (announces m) eqn:A; [|reflexivity]. apply announces_profile in A. destruct A as (A & _). unfold from_profile in A. 
        assert (m_ESV m = 0x72 \/ m_ESV m = 0x73) as [H|H] by lia; rewrite H in NR; discriminate. }
      split; [unfold announcers; cbn [flat_map]; rewrite AN; exact K|]. intros ip. cbn [last_list]. specialize (T ip).
      destruct (last_list ip ms); [exact T|]. rewrite AN. destruct (String.eqb (from_ip m) ip); exact T.
    + destruct S as (c1 & E1 & ->). destruct (found_step PS w tr c a m c1 tr1 r1 Q Hm NR E1) as (L1 & K1 & O1 & N1).
      destruct (IH (Forall_inv_tail F) tr1 (set_ln_ctl (Some c1) s) c1 s2 tr2 rs2 eq_refl R) as (c' & C' & L & K & T). exists c'. split; [exact C'|]. split; [congruence|].
      split.
      * unfold announcers. cbn [flat_map]. rewrite fold_left_app. rewrite K, K1. destruct (announces m); cbn [fold_left]; [rewrite Fr|]; reflexivity.
      * intros ip. cbn [last_list]. specialize (T ip). destruct (last_list ip ms) as [codes|]; [exact T|].
        rewrite Fr. destruct (String.eqb_spec (fst a) ip) as [<-|N].
        -- destruct (announces m) as [codes|].
           ++ destruct (N1 _ eq_refl) as (n1 & G1 & D1). rewrite G1 in T. destruct T as (n2 & G2 & A2 & B2). exists n2. split; [exact G2|].
              destruct (found_node_spec a codes) as (FA & _ & FC & _).
              assert (X : n_addr n1 = Some a /\ map o_code (node_objects n1) = firsts Z.eqb (0x0EF001 :: codes)).
              { destruct D1 as [->|(_ & ->)]; [auto|]. destruct (rec_node_keeps m (found_node a codes)) as (Y1 & Y2 & _). rewrite Y1, Y2. auto. }
              destruct X as (X1 & X2). split; [unfold node_ip; rewrite A2, X1; reflexivity|congruence].
           ++ destruct (sget (fst a) (c_found c)) as [n|] eqn:G.
              ** destruct (N1 n eq_refl) as (n1 & G1 & D1). rewrite G1 in T. destruct T as (n2 & G2 & A2 & B2). exists n2. split; [exact G2|].
                 assert (X : like n n1). { destruct D1 as [->|(_ & ->)]; [split; reflexivity|]. destruct (rec_node_keeps m n) as (Y1 & Y2 & _). split; auto. }
                 destruct X as (X1 & X2). split; congruence.
              ** assert (G1 : sget (fst a) (c_found c1) = None).
                 { apply (dget_none String.eqb seqb_eq). rewrite K1. now apply (dget_none String.eqb seqb_eq). }
                 rewrite G1 in T. exact T.
        -- rewrite O1 in T by congruence. exact T.
Qed.

Lemma L_C46_table : forall (PS : PySet) w tr s c ms s' tr' rs, quiet w -> ln_ctl s = Some c -> c_found c = [] ->
  Forall (fun m => exists a, received_from a m) ms -> received_all w tr s ms = (s', tr', rs) ->
  exists c', ln_ctl s' = Some c' /\
  map node_ip (ctl_nodes c') = firsts String.eqb (announcers ms) /\
  (forall n, In n (ctl_nodes c') -> exists codes, last_list (node_ip n) ms = Some codes /\
     map o_code (node_objects n) = firsts Z.eqb (0x0EF001 :: codes)) /\
  (forall w1 t ip, get_node w1 t c' (GATup ip) = Ok (find (fun n => String.eqb (node_ip n) ip) (ctl_nodes c'))).
Proof.
  intros PS w tr s c ms s' tr' rs Q C E F R. destruct (history_table PS w ms Q F _ _ _ _ _ _ C R) as (c' & C' & L & K & T).
  exists c'. split; [exact C'|]. rewrite E in K. cbn [dkeys map] in K. rewrite <- firsts_fold in K.
  assert (N : NoDup (dkeys (c_found c'))) by (rewrite K; apply (firsts_nodup String.eqb seqb_eq)).
  assert (G : forall ip n, In (ip, n) (c_found c') -> node_ip n = ip /\ exists codes, last_list ip ms = Some codes /\ map o_code (node_objects n) = firsts Z.eqb (0x0EF001 :: codes)).
  { intros ip n I. apply (in_dget String.eqb seqb_eq) in I; [|exact N]. specialize (T ip). rewrite E in T. cbn [dget] in T.
    destruct (last_list ip ms) as [codes|]; [|congruence]. destruct T as (n1 & G1 & I1 & M1). assert (n1 = n) by congruence. subst n1. split; [exact I1|]. eauto. }
  assert (KI : map node_ip (ctl_nodes c') = dkeys (c_found c')).
  { unfold ctl_nodes, dvals, dkeys. rewrite map_map. apply map_ext_in. intros (ip, n) I. cbn [fst snd]. now apply G. }
  split; [congruence|]. split.
  - intros n I. unfold ctl_nodes, dvals in I. apply in_map_iff in I. destruct I as ((ip, n1) & <- & I). cbn [snd]. destruct (G ip n1 I) as (-> & X). exact X.
  - intros w1 t ip. rewrite get_node_tup. f_equal. clear - G. unfold ctl_nodes. induction (c_found c') as [|[k n] d IH]; [reflexivity|].
    cbn [dget dvals map find snd]. destruct (G k n (or_introl eq_refl)) as (-> & _). rewrite String.eqb_sym. destruct (String.eqb k ip); [reflexivity|].
    apply IH. intros. apply G. now right.
Qed.

(** ** C48 *)
Lemma step_of (PS : PySet) w tr s c a m s' tr' r : quiet w -> ln_ctl s = Some c -> received_from a m ->
  node_received w tr s m = (s', tr', r) -> exists c', ln_ctl s' = Some c' /\
  (is_request (m_ESV m) = true -> c' = c) /\ (is_request (m_ESV m) = false -> ctl_response w tr c m = (c', tr', r)).
Proof.
  intros Q C Hm H. pose proof (ctl_node_received PS w tr s c a m s' tr' r C Hm H) as S. destruct (is_request (m_ESV m)).
  - exists c. repeat split; auto. discriminate.
  - destruct S as (c' & E & ->). exists c'. repeat split; auto. discriminate.
Qed.

Lemma L_C48_recorded_partial : forall (PS : PySet) w tr s c a m n o s' tr' r, quiet w -> ln_ctl s = Some c -> received_from a m ->
  m_ESV m = 0x72 \/ m_ESV m = 0x73 -> m_DEOJ m = 0x0EF001 -> announces m = None -> empty_list m = false ->
  sget (fst a) (c_found c) = Some n -> get_object (PInt 0x0EF001) n = Some o ->
  node_received w tr s m = (s', tr', r) ->
  r = Ok tt /\ exists c' n' o', ln_ctl s' = Some c' /\ dkeys (c_found c') = dkeys (c_found c) /\
  sget (fst a) (c_found c') = Some n' /\ n_addr n' = n_addr n /\
  get_object (PInt 0x0EF001) n' = Some o' /\ records (m_props m) o o' /\
  (forall k, k <> 0x0EF001 -> get_object (PInt k) n' = get_object (PInt k) n) /\
  (forall ip, ip <> fst a -> sget ip (c_found c') = sget ip (c_found c)).
Proof.
  intros PS w tr s c a m n o s' tr' r Q C Hm EV DE AN EL G GO H. destruct (step_of PS w tr s c a m s' tr' r Q C Hm H) as (c' & C' & _ & S).
  assert (NR : is_request (m_ESV m) = false) by (destruct EV as [-> | ->]; reflexivity). specialize (S NR).
  destruct (found_step PS w tr c a m c' tr' r Q Hm NR S) as (_ & K & O & _). rewrite AN in K.
  rewrite (ctl_response_eq w tr c a m Q Hm NR) in S.
  assert (FP : from_profile m = true) by (unfold from_profile; destruct EV as [-> | ->]; reflexivity).
  unfold announce_found, announce_events in S. rewrite AN, FP, DE, Z.eqb_refl, EL, G in S. cbn [andb orb negb] in S. cbv zeta in S.
  injection S as <- <- <-. split; [reflexivity|].
  destruct (rec_node_keeps m n) as (R1 & _ & R3 & R4 & _). rewrite DE in *.
  unfold get_object in *. cbn [new_object set_code fst o_code] in *. destruct (R4 o GO) as (o' & G' & Rc).
  eexists. exists (rec_node m n), o'. split; [exact C'|]. rewrite !post_found in *. cbn [set_found c_found] in *.
  split; [exact K|]. split; [rewrite (dget_dset String.eqb seqb_eq), String.eqb_refl; reflexivity|]. split; [exact R1|]. split; [exact G'|]. split; [exact Rc|].
  split; [exact R3|exact O].
Qed.

(** Finding: nothing is ever recorded on an object other than a node profile. *)
Lemma L_C48_devices_refuted : forall (PS : PySet) w tr s c a m s' tr' r, quiet w -> ln_ctl s = Some c -> received_from a m ->
  announces m = None -> node_received w tr s m = (s', tr', r) ->
  exists c', ln_ctl s' = Some c' /\
  forall ip n, sget ip (c_found c) = Some n -> exists n', sget ip (c_found c') = Some n' /\
  forall k, k <> 0x0EF001 -> get_object (PInt k) n' = get_object (PInt k) n.
Proof.
  intros PS w tr s c a m s' tr' r Q C Hm AN H. destruct (step_of PS w tr s c a m s' tr' r Q C Hm H) as (c' & C' & S1 & S2).
  exists c'. split; [exact C'|]. intros ip n G. destruct (is_request (m_ESV m)) eqn:NR.
  - rewrite (S1 eq_refl). exists n. split; [exact G|reflexivity].
  - destruct (found_step PS w tr c a m c' tr' r Q Hm NR (S2 eq_refl)) as (_ & _ & O & N). rewrite AN in N.
    destruct (String.eqb_spec ip (fst a)) as [->|X].
    + destruct (N n G) as (n' & G' & D). exists n'. split; [exact G'|]. intros k Hk. destruct D as [->|(DE & ->)]; [reflexivity|].
      destruct (rec_node_keeps m n) as (_ & _ & R3 & _). unfold get_object. cbn [new_object set_code fst o_code]. apply R3. congruence.
    + exists n. split; [rewrite O by exact X; exact G|reflexivity].
Qed.

(** ** C50 *)
Lemma from_profile_iff m : from_profile m = true <-> m_ESV m = 0x72 \/ m_ESV m = 0x73.
Proof. unfold from_profile. lia. Qed.
Lemma from_profile_no m : from_profile m = false <-> ~ (m_ESV m = 0x72 \/ m_ESV m = 0x73).
Proof. unfold from_profile. lia. Qed.

Lemma response_result (PS : PySet) w tr s c a m s' tr' r : quiet w -> ln_ctl s = Some c -> received_from a m ->
  is_request (m_ESV m) = false -> node_received w tr s m = (s', tr', r) -> forall e, r = Err e <-> raises c m e.
Proof.
  intros Q C Hm NR H. destruct (step_of PS w tr s c a m s' tr' r Q C Hm H) as (c' & C' & _ & S). specialize (S NR).
  assert (Fr : from_ip m = fst a) by (unfold from_ip; destruct (received_copy a m Hm) as (_ & ->); reflexivity).
  rewrite (ctl_response_eq w tr c a m Q Hm NR) in S.
  assert (AE : match announces m with Some _ => from_profile m = true /\ m_DEOJ m = 0x0EF001 /\ empty_list m = false | None => True end)
    by (destruct (announces m) eqn:A; [now apply (announces_profile m l)|exact I]).
  intros e. unfold raises. rewrite Fr.
  destruct (from_profile m) eqn:FP; cbn [andb] in S.
  - apply from_profile_iff in FP. destruct (Z.eqb_spec (m_DEOJ m) 0x0EF001) as [DE|DE]; cbn [negb andb] in S.
    + destruct (empty_list m) eqn:EL.
      * injection S as _ _ <-. assert (AN : announces m = None) by (destruct (announces m); [destruct AE as (_ & _ & ?); discriminate|reflexivity]).
        split; [intros [= <-]; auto|]. destruct e; try contradiction; [auto|]. intros [(_ & X)|([(_ & _ & X)|X] & _)]; [contradiction|discriminate|].
        destruct FP; congruence.
      * cbn [orb] in S. cbv zeta in S. unfold announce_found in S. destruct (announces m) as [codes|] eqn:AN.
        -- cbn [set_found c_found] in S. rewrite (dget_dset String.eqb seqb_eq), String.eqb_refl in S. injection S as _ _ <-.
           split; [discriminate|]. destruct e; try contradiction; [intros (_ & _ & X); discriminate|]. intros [(_ & X)|(_ & X & _)]; [contradiction|discriminate].
        -- destruct (sget (fst a) (c_found c)) as [n|] eqn:G; injection S as _ _ <-.
           ++ split; [discriminate|]. destruct e; try contradiction; [intros (_ & _ & X); discriminate|]. intros [(_ & X)|(_ & _ & X)]; [contradiction|discriminate].
           ++ split; [intros [= <-]; right; auto|]. destruct e; try contradiction; [intros (_ & _ & X); discriminate|]. reflexivity.
    + injection S as _ _ <-. split; [intros [= <-]; left; auto|]. destruct e; try contradiction; [intros (_ & X & _); contradiction|]. reflexivity.
  - apply from_profile_no in FP. cbn [orb] in S. cbv zeta in S. unfold announce_found in S.
    destruct (announces m) eqn:AN; [destruct AE; discriminate|].
    destruct (Z.eqb_spec (m_ESV m) 0x7E) as [E7|E7].
    + destruct (sget (fst a) (c_found c)) as [n|] eqn:G; injection S as _ _ <-.
      * split; [discriminate|]. destruct e; try contradiction; [tauto|]. intros [X|(_ & _ & X)]; [tauto|discriminate].
      * split; [intros [= <-]; right; auto|]. destruct e; try contradiction; [tauto|]. reflexivity.
    + injection S as _ _ <-. split; [discriminate|]. destruct e; tauto.
Qed.

Lemma request_step (PS : PySet) w tr s c a m s' tr' r : quiet w -> no_raise w -> ln_ctl s = Some c -> fitting_node s ->
  received_from a m -> knows_gets s m -> is_request (m_ESV m) = true -> node_received w tr s m = (s', tr', r) ->
  r = Ok tt /\ fitting_node s' /\ ln_ctl s' = Some c /\
  (forall k, match zget k (ln_objs s), zget k (ln_objs s') with
             | Some o, Some o' => forall c, has_property c o' = has_property c o
             | None, None => True
             | _, _ => False
             end).
Proof.
  intros Q N C Ft Hm K RQ H.
  destruct (node_sends PS w tr s a m s' tr' r Hm H) as (evs & E & F & _ & A1 & A2).
  destruct (L_C30_addressed PS w tr s a m s' tr' r Hm H) as (evs2 & _ & O1 & _ & _ & _ & _ & _ & O2 & _ & O3).
  pose proof (ctl_node_received PS w tr s c a m s' tr' r C Hm H) as C'. rewrite RQ in C'.
  assert (RI : In (m_ESV m) [0x60; 0x61; 0x62; 0x63; 0x6E; 0x74]) by (apply L_C10_esv_classification; exact RQ).
  specialize (A2 Q (or_intror RQ)). destruct (zget (m_DEOJ m) (ln_objs s)) as [o|] eqn:Z.
  2:{ subst r. destruct (O3 eq_refl) as (_ & S & _). rewrite S. split; [reflexivity|]. split; [exact Ft|]. split; [exact C'|].
      intros k. cbn [set_ln_ctl ln_objs]. change (ln_objs (set_ln_ctl (ln_ctl s') s)) with (ln_objs s). destruct (zget k (ln_objs s)); auto. }
  destruct (fitting_message a m o Hm (Ft _ _ Z) (fun I => K I o Z)) as (o' & x & O & Fo & Ho & En).
  destruct (O2 o eq_refl) as (_ & O4). destruct (O4 Q (or_intror RI)) as (Z' & _).
  assert (OS : obj_step o m = o') by (unfold obj_step; rewrite O; reflexivity). rewrite OS in Z'.
  split; [|split; [|split; [exact C'|]]].
  - rewrite O in A2. destruct x as [rsp|]; [|exact A2]. destruct (A1 Q o o' _ rsp eq_refl O) as (A3 & _).
    destruct (A3 (En _ eq_refl)) as (b & (g & t & _ & EB) & M & R). destruct r as [[]|e]; [reflexivity|]. exfalso.
    refine (no_raise_raised w _ e N (by_mode_nonempty _ _ _ _ _ _ M) F R). rewrite EB. apply wire_nonempty.
  - intros k o1 Z1. destruct (Z.eq_dec k (m_DEOJ m)) as [Ek|Ek]; [subst k; rewrite Z' in Z1; injection Z1 as <-; exact Fo|].
    rewrite (O1 k Ek) in Z1. exact (Ft _ _ Z1).
  - intros k. destruct (Z.eq_dec k (m_DEOJ m)) as [Ek|Ek]; [subst k; rewrite Z', Z; exact Ho|].
    rewrite (O1 k Ek). destruct (zget k (ln_objs s)); auto.
Qed.

Lemma L_C50_survives_partial : forall (PS : PySet) w tr s c a m s' tr' r, quiet w -> no_raise w -> ln_ctl s = Some c ->
  fitting_node s -> received_from a m -> knows_gets s m -> node_received w tr s m = (s', tr', r) ->
  forall e, r = Err e <-> raises c m e.
Proof.
  intros PS w tr s c a m s' tr' r Q N C Ft Hm K H. destruct (is_request (m_ESV m)) eqn:RQ.
  - destruct (request_step PS w tr s c a m s' tr' r Q N C Ft Hm K RQ H) as (-> & _). intros e. split; [discriminate|].
    assert (X : m_ESV m <> 0x72 /\ m_ESV m <> 0x73 /\ m_ESV m <> 0x7E) by (split; [|split]; intros X; rewrite X in RQ; discriminate).
    intros Y. exfalso. destruct e; cbn [raises] in Y; tauto.
  - exact (response_result PS w tr s c a m s' tr' r Q C Hm RQ H).
Qed.

(** Findings. *)
Lemma L_C50_device_refuted : forall (PS : PySet) w tr s c a m s' tr' r, quiet w -> ln_ctl s = Some c -> received_from a m ->
  m_ESV m = 0x72 \/ m_ESV m = 0x73 -> m_DEOJ m <> 0x0EF001 -> node_received w tr s m = (s', tr', r) -> r = Err AttributeError /\ s' = s.
Proof.
  intros PS w tr s c a m s' tr' r Q C Hm EV DE H.
  assert (NR : is_request (m_ESV m) = false) by (destruct EV as [-> | ->]; reflexivity).
  pose proof (ctl_node_received PS w tr s c a m s' tr' r C Hm H) as S. rewrite NR in S. destruct S as (c' & E & ->).
  rewrite (ctl_response_eq w tr c a m Q Hm NR) in E. apply from_profile_iff in EV. rewrite EV in E.
  destruct (Z.eqb_spec (m_DEOJ m) 0x0EF001); [contradiction|]. cbn [andb negb] in E. injection E as <- <- <-.
  split; [reflexivity|]. rewrite <- C. destruct s; reflexivity.
Qed.
Lemma L_C50_unknown_refuted : forall (PS : PySet) w tr s c a m s' tr' r, quiet w -> ln_ctl s = Some c -> received_from a m ->
  m_ESV m = 0x72 \/ m_ESV m = 0x73 -> m_DEOJ m = 0x0EF001 -> empty_list m = false -> announces m = None -> sget (fst a) (c_found c) = None ->
  node_received w tr s m = (s', tr', r) -> r = Err AttributeError.
Proof.
  intros PS w tr s c a m s' tr' r Q C Hm EV DE EL AN G H.
  assert (NR : is_request (m_ESV m) = false) by (destruct EV as [-> | ->]; reflexivity).
  apply (response_result PS w tr s c a m s' tr' r Q C Hm NR H). right.
  assert (Fr : from_ip m = fst a) by (unfold from_ip; destruct (received_copy a m Hm) as (_ & ->); reflexivity). rewrite Fr. auto.
Qed.
Lemma L_C50_empty_refuted : forall (PS : PySet) w tr s c a m s' tr' r, quiet w -> ln_ctl s = Some c -> received_from a m ->
  m_ESV m = 0x72 \/ m_ESV m = 0x73 -> m_DEOJ m = 0x0EF001 -> empty_list m = true ->
  node_received w tr s m = (s', tr', r) -> r = Err IndexError.
Proof.
  intros PS w tr s c a m s' tr' r Q C Hm EV DE EL H.
  assert (NR : is_request (m_ESV m) = false) by (destruct EV as [-> | ->]; reflexivity).
  apply (response_result PS w tr s c a m s' tr' r Q C Hm NR H). cbn [raises]. auto.
Qed.

(** ** C61 *)
Lemma get_node_str_ok w tr ip s d : os_resolve w tr s = Ok ip ->
  get_node_loop w tr d (GAStr s) = Ok (option_map snd (find (fun e => String.eqb s (fst e) || String.eqb ip (fst e)) d)).
Proof.
  intros R. induction d as [|[k n] d IH]; [reflexivity|]. cbn [get_node_loop find fst]. rewrite R. cbn [bindr].
  destruct (String.eqb s k); [reflexivity|]. cbn [orb]. destruct (String.eqb ip k); [reflexivity|exact IH].
Qed.
Lemma get_node_str_err w tr e s d : os_resolve w tr s = Err e ->
  get_node_loop w tr d (GAStr s) =
  match d with [] => Ok None | (k, n) :: _ => if String.eqb s k then Ok (Some n) else Err e end.
Proof. intros R. destruct d as [|[k n] d]; [reflexivity|]. cbn [get_node_loop]. rewrite R. destruct (String.eqb s k); reflexivity. Qed.

Lemma find_keyed f d : Forall (fun e => node_ip (snd e) = fst e) d ->
  option_map snd (find (fun e : string * node => f (fst e)) d) = find (fun n => f (node_ip n)) (dvals d).
Proof.
  induction 1 as [|[k n] d H _ IH]; [reflexivity|]. cbn [find dvals map fst snd] in *. rewrite H. destruct (f k); [reflexivity|exact IH].
Qed.
Lemma find_ext {A} (f g : A -> bool) l : (forall x, In x l -> f x = g x) -> find f l = find g l.
Proof.
  induction l as [|x l IH]; intros H; [reflexivity|]. cbn [find]. rewrite (H x) by now left. destruct (g x); [reflexivity|].
  apply IH. intros y Y. apply H. now right.
Qed.

Lemma keyed_get_tup w tr c ip : keyed c -> get_node w tr c (GATup ip) = Ok (find_ip ip c).
Proof.
  intros K. rewrite get_node_tup. f_equal. unfold find_ip, ctl_nodes. unfold keyed in K. induction K as [|[k n] d H _ IH]; [reflexivity|].
  cbn [dget dvals map find fst snd] in *. rewrite H, String.eqb_sym. destruct (String.eqb k ip); [reflexivity|exact IH].
Qed.
Lemma L_C61_get_node_partial : forall w tr c, keyed c ->
  (forall ip, get_node w tr c (GATup ip) = Ok (find_ip ip c)) /\
  (forall s ip, os_resolve w tr s = Ok ip -> s = ip \/ find_ip s c = None -> get_node w tr c (GAStr s) = Ok (find_ip ip c)) /\
  (forall s, (forall n, In n (ctl_nodes c) -> node_ip n = s) -> get_node w tr c (GAStr s) = Ok (find_ip s c)).
Proof.
  intros w tr c K. split; [intros ip; now apply keyed_get_tup|]. split.
  - intros s ip R D. unfold get_node. rewrite (get_node_str_ok w tr ip s _ R).
    rewrite (find_keyed (fun k => String.eqb s k || String.eqb ip k) _ K). f_equal. unfold find_ip, ctl_nodes. apply find_ext. intros n I.
    rewrite (String.eqb_sym ip), (String.eqb_sym s). destruct D as [->|D].
    + destruct (String.eqb (node_ip n) ip); reflexivity.
    + unfold find_ip, ctl_nodes in D. pose proof (find_none _ _ D n I) as X. cbn beta in X. rewrite X. reflexivity.
  - intros s A. unfold get_node, find_ip, ctl_nodes in *. destruct (c_found c) as [|[k n] d] eqn:E; [reflexivity|].
    assert (X : k = s). { rewrite <- (A n) by (left; reflexivity). unfold keyed in K. rewrite E in K. symmetry. exact (Forall_inv K). }
    subst k. cbn [get_node_loop dvals map find snd]. rewrite String.eqb_refl, (A n) by (left; reflexivity). rewrite String.eqb_refl. reflexivity.
Qed.
(** Finding: a name that does not resolve raises, unless nothing was found yet or the name is the IP of the
    first node found. *)
Lemma L_C61_get_node_refuted : forall w tr c s e n rest, keyed c -> os_resolve w tr s = Err e -> ctl_nodes c = n :: rest ->
  node_ip n <> s -> get_node w tr c (GAStr s) = Err e.
Proof.
  intros w tr c s e n rest K R N I. unfold get_node. rewrite (get_node_str_err w tr e s _ R). unfold ctl_nodes in N. unfold keyed in K.
  destruct (c_found c) as [|[k n1] d]; [discriminate|]. cbn [dvals map snd] in N. assert (n1 = n) by congruence. subst n1.
  pose proof (Forall_inv K) as H. cbn [fst snd] in H. destruct (String.eqb_spec s k) as [->|]; [congruence|reflexivity].
Qed.

(** ** Tables stay tidy *)
Lemma std_obj_wf (PS : PySet) k : wf_obj (std_obj k).
Proof.
  intros x p G. destruct (L_C56_standard_properties PS (PInt k) k eq_refl) as (o & E & _ & _ & T).
  rewrite (proj1 (std_obj_ok k)) in E. assert (std_obj k = o) by congruence. subst o. specialize (T x).
  destruct (row_for x (object_rows (group_of k) (class_of k))) as [r|] eqn:R; [|congruence].
  destruct T as (p1 & G1 & (M & _)). assert (p1 = p) by congruence. subst p1. rewrite M. unfold row_for in R. apply find_some in R. destruct R as (_ & R). cbn beta in R. lia.
Qed.
Lemma records_wf ps o o' : records ps o o' -> wf_obj o -> wf_obj o'.
Proof.
  intros (_ & _ & R) W x p G. rewrite R in G. destruct (get_property x o) as [q|] eqn:Gq; [|discriminate]. specialize (W x q Gq).
  destruct (last_data x ps); assert (E : p = _) by (symmetry; injection G as H; exact H); subst p; exact W.
Qed.
Definition tidy_node (n : node) : Prop := forall k o, zget k (n_objs n) = Some o -> o_code o = k /\ wf_obj o.
Lemma found_tidy (PS : PySet) a codes : tidy_node (found_node a codes).
Proof.
  intros k o G. destruct (found_node_spec a codes) as (_ & _ & _ & S & _). pose proof (S k o G) as E. rewrite (proj1 (std_obj_ok k)) in E.
  assert (std_obj k = o) by congruence. subst o. split; [apply std_obj_ok|apply std_obj_wf].
Qed.
Lemma rec_tidy m n : tidy_node n -> tidy_node (rec_node m n).
Proof.
  intros T k o G. destruct (rec_node_keeps m n) as (_ & _ & R3 & R4 & R5 & _). destruct (zget (m_DEOJ m) (n_objs n)) as [o0|] eqn:Z0.
  - destruct (Z.eq_dec k (m_DEOJ m)) as [->|N].
    + destruct (R4 o0 eq_refl) as (o1 & G1 & Rc). assert (o1 = o) by congruence. subst o1. destruct (T _ _ Z0) as (C & W).
      split; [destruct Rc as (-> & _); exact C|exact (records_wf _ _ _ Rc W)].
    + rewrite R3 in G by exact N. exact (T _ _ G).
  - rewrite (R5 eq_refl) in G. exact (T _ _ G).
Qed.
Lemma tidy_step (PS : PySet) w tr s c a m s' tr' r c' : quiet w -> ln_ctl s = Some c -> received_from a m ->
  node_received w tr s m = (s', tr', r) -> ln_ctl s' = Some c' -> tidy c -> NoDup (dkeys (c_found c)) -> tidy c' /\ NoDup (dkeys (c_found c')).
Proof.
  intros Q C Hm H C' T ND. destruct (step_of PS w tr s c a m s' tr' r Q C Hm H) as (c1 & E1 & S1 & S2).
  assert (c1 = c') by congruence. subst c1. destruct (is_request (m_ESV m)) eqn:NR; [rewrite (S1 eq_refl); auto|].
  destruct (found_step PS w tr c a m c' tr' r Q Hm NR (S2 eq_refl)) as (_ & K & O & N). split.
  - intros ip n G. destruct (String.eqb_spec ip (fst a)) as [->|X]; [|rewrite O in G by exact X; exact (T _ _ G)].
    destruct (announces m) as [codes|] eqn:A.
    + destruct (N _ eq_refl) as (n' & G' & D). assert (n' = n) by congruence. subst n'. destruct (found_node_spec a codes) as (FA & _).
      destruct D as [->|(_ & ->)].
      * split; [unfold node_ip; rewrite FA; reflexivity|apply found_tidy].
      * split; [unfold node_ip; rewrite (proj1 (rec_node_keeps m (found_node a codes))), FA; reflexivity|]. apply rec_tidy, found_tidy.
    + destruct (sget (fst a) (c_found c)) as [n0|] eqn:G0.
      * destruct (N n0 eq_refl) as (n' & G' & D). assert (n' = n) by congruence. subst n'. destruct (T _ _ G0) as (I & Tn).
        destruct D as [->|(_ & ->)]; [auto|]. split; [unfold node_ip in *; rewrite (proj1 (rec_node_keeps m n0)); exact I|]. now apply rec_tidy.
      * assert (G1 : sget (fst a) (c_found c') = None) by (apply (dget_none String.eqb seqb_eq); rewrite K; now apply (dget_none String.eqb seqb_eq)).
        congruence.
  - rewrite K. destruct (announces m); [|exact ND]. unfold add_key. destruct (existsb (String.eqb (fst a)) (dkeys (c_found c))) eqn:X; [exact ND|].
    apply NoDup_rev in ND. rewrite <- (rev_involutive (_ ++ _)), rev_app_distr. apply NoDup_rev. cbn [rev app]. constructor; [|exact ND].
    intros I. apply in_rev in I. apply Bool.not_true_iff_false in X. apply X. apply existsb_exists. exists (fst a). split; [exact I|apply String.eqb_refl].
Qed.
Lemma tidy_history (PS : PySet) w ms : quiet w -> Forall (fun m => exists a, received_from a m) ms ->
  forall tr s c s' tr' rs, ln_ctl s = Some c -> tidy c -> NoDup (dkeys (c_found c)) -> received_all w tr s ms = (s', tr', rs) ->
  exists c', ln_ctl s' = Some c' /\ tidy c' /\ NoDup (dkeys (c_found c')).
Proof.
  intros Q. induction ms as [|m ms IH]; intros F tr s c s' tr' rs C T ND; cbn [received_all].
  - intros [= <- <- <-]. eauto.
  - destruct (node_received w tr s m) as [[s1 tr1] r1] eqn:E. destruct (received_all w tr1 s1 ms) as [[s2 tr2] rs2] eqn:R. intros [= <- <- <-].
    pose proof (Forall_inv F) as (a & Hm). destruct (step_of PS w tr s c a m s1 tr1 r1 Q C Hm E) as (c1 & C1 & _).
    destruct (tidy_step PS w tr s c a m s1 tr1 r1 c1 Q C Hm E C1 T ND) as (T1 & N1). exact (IH (Forall_inv_tail F) _ _ _ _ _ _ C1 T1 N1 R).
Qed.
Lemma tidy_keyed c : tidy c -> NoDup (dkeys (c_found c)) -> keyed c.
Proof. intros T N. unfold keyed. apply Forall_forall. intros (ip, n) I. cbn [fst snd]. apply (in_dget String.eqb seqb_eq) in I; [|exact N]. apply (T _ _ I). Qed.
Lemma L_C61_tables : forall (PS : PySet) w tr s c ms s' tr' rs, quiet w -> ln_ctl s = Some c -> c_found c = [] ->
  Forall (fun m => exists a, received_from a m) ms -> received_all w tr s ms = (s', tr', rs) ->
  exists c', ln_ctl s' = Some c' /\ keyed c' /\ NoDup (map node_ip (ctl_nodes c')).
Proof.
  intros PS w tr s c ms s' tr' rs Q C E F R.
  destruct (tidy_history PS w ms Q F tr s c s' tr' rs C) as (c' & C' & T & N); [intros ip n G; rewrite E in G; discriminate|rewrite E; constructor|exact R|].
  exists c'. split; [exact C'|]. pose proof (tidy_keyed _ T N) as K. split; [exact K|].
  assert (X : map node_ip (ctl_nodes c') = dkeys (c_found c')); [|rewrite X; exact N].
  unfold ctl_nodes, dvals, dkeys. rewrite map_map. apply map_ext_in. intros e I. unfold keyed in K. rewrite Forall_forall in K. exact (K e I).
Qed.

(** ** C49 *)
Lemma lcalls_app a b : lcalls (a ++ b) = lcalls a ++ lcalls b.
Proof. unfold lcalls. apply flat_map_app. Qed.
Lemma lcalls_map (ls : list nat) f g : (forall l, lcalls [f l] = [g l]) -> lcalls (map f ls) = map g ls.
Proof.
  intros H. induction ls as [|l ls IH]; [reflexivity|]. cbn [map]. change (f l :: map f ls) with ([f l] ++ map f ls). rewrite lcalls_app, H, IH. reflexivity.
Qed.
Lemma store_data c d o x : data_at (store c d o) x = match data_at o c with
  | Some _ => if x =? c then Some d else data_at o x | None => data_at o x end.
Proof.
  unfold data_at. rewrite store_get, (Z.eqb_sym x c). destruct (Z.eqb_spec c x) as [->|].
  - destruct (get_property x o); reflexivity.
  - destruct (get_property c o); reflexivity.
Qed.
Lemma store_wf c d o : wf_obj o -> wf_obj (store c d o).
Proof.
  intros W x p. rewrite store_get. destruct (Z.eqb_spec c x) as [->|]; [|apply W].
  destruct (get_property x o) as [q|] eqn:G; [|discriminate]. intros H. assert (E : p = set_op_data d q) by congruence. subst p. exact (W x q G).
Qed.
Lemma upd_lcalls ls key ip ps : forall n o, node_ip n = ip -> o_code o = key -> wf_obj o ->
  lcalls (upd_events ls key n o ps) = flat_map (fun p => map (fun x => CPropUpd x ip key p) ls) (changed (data_at o) ps).
Proof.
  induction ps as [|p ps IH]; intros n o I C W; [reflexivity|]. cbn [upd_events changed]. unfold data_at at 1.
  destruct (get_property (p_code p) o) as [q|] eqn:G; cbn [option_map]; [|now apply IH].
  rewrite same_bytes_eq. destruct (bytes_eqb (op_data q) (p_data p)); [now apply IH|]. cbv zeta. rewrite lcalls_app. cbn [flat_map]. f_equal.
  - apply lcalls_map. intros l. unfold lcalls. cbn [flat_map app]. unfold put_node_obj, node_ip in *. cbn [n_addr].
    rewrite I. destruct (store_keeps (p_code p) (p_data p) o) as (-> & _). rewrite C. pose proof (W _ _ G) as Wc.
    replace (mkprop _ _) with p; [reflexivity|]. destruct p as [pc pd]. cbn [p_code p_data] in *. rewrite <- Wc. destruct q; reflexivity.
  - rewrite IH.
    + f_equal. apply changed_ext. intros x. rewrite store_data. unfold data_at at 1. rewrite G. reflexivity.
    + unfold put_node_obj, node_ip in *. exact I.
    + destruct (store_keeps (p_code p) (p_data p) o) as (-> & _). exact C.
    + now apply store_wf.
Qed.
Lemma rec_lcalls ls m n ip : m_DEOJ m = 0x0EF001 -> node_ip n = ip -> tidy_node n ->
  lcalls (rec_events ls m n) = match get_object (PInt 0x0EF001) n with Some o => change_calls ls ip o (m_props m) | None => [] end.
Proof.
  intros DE I T. unfold rec_events. destruct (rec_node_keeps m n) as (RA & _). unfold get_object. cbn [new_object set_code fst o_code].
  rewrite DE. destruct (zget 0x0EF001 (n_objs n)) as [o|] eqn:Zo; [|reflexivity]. destruct (T _ _ Zo) as (C & W).
  rewrite lcalls_app, (upd_lcalls ls _ ip (m_props m) n o I C W). unfold change_calls.
  destruct (changed (data_at o) (m_props m)) as [|x xs]; [reflexivity|]. f_equal. rewrite lcalls_app.
  assert (RI : node_ip (rec_node m n) = ip) by (unfold node_ip in *; rewrite RA; exact I).
  assert (RC : o_code (record_all o (m_props m)) = 0x0EF001) by (destruct (record_all_records (m_props m) o) as (-> & _); exact C).
  f_equal; apply lcalls_map; intros l; unfold lcalls; cbn [flat_map app]; rewrite ?RI, ?RC; reflexivity.
Qed.

Lemma request_quiet_events (PS : PySet) w tr s a m : received_from a m -> is_request (m_ESV m) = true ->
  exists s' evs r, node_received w tr s m = (s', tr ++ evs, r) /\ lcalls evs = [].
Proof.
  intros Hm RQ. destruct (node_received_spec w tr s a m Hm) as (s1 & evs & r1 & E & L & _). exists s1, evs, r1. split; [exact E|].
  specialize (L (or_intror RQ)). unfold local_spec in L. destruct (zget (m_DEOJ m) (ln_objs s)) as [o|]; [|destruct L as (_ & -> & _); reflexivity].
  destruct L as (oe & sn & -> & F & _). rewrite lcalls_app.
  assert (A : lcalls oe = []). { clear - F. induction F as [|e l (n & ->) _ IH]; [reflexivity|exact IH]. }
  assert (B : lcalls (map ev_of sn) = []). { clear. induction sn as [|[[[i b] d] r] l IH]; [reflexivity|exact IH]. }
  rewrite A, B. reflexivity.
Qed.

Lemma response_calls (PS : PySet) w tr s c a m s' tr' r : quiet w -> ln_ctl s = Some c -> received_from a m -> tidy c ->
  node_received w tr s m = (s', tr', r) -> exists evs, tr' = tr ++ evs /\ lcalls evs = calls_due c m.
Proof.
  intros Q C Hm T H. assert (Fr : from_ip m = fst a) by (unfold from_ip; destruct (received_copy a m Hm) as (_ & ->); reflexivity).
  unfold calls_due. fold (from_profile m). destruct (is_request (m_ESV m)) eqn:RQ.
  - destruct (request_quiet_events PS w tr s a m Hm RQ) as (s1 & evs & r1 & E & L). rewrite E in H. injection H as <- <- <-. exists evs. split; [reflexivity|].
    assert (FP : from_profile m = false).
    { apply from_profile_no. intros X. destruct X as [X|X]; rewrite X in RQ; discriminate. }
    rewrite FP. exact L.
  - destruct (step_of PS w tr s c a m s' tr' r Q C Hm H) as (c' & C' & _ & S). specialize (S RQ).
    assert (NIL : tr' = tr -> forall l, l = [] -> exists evs, tr' = tr ++ evs /\ lcalls evs = l).
    { intros -> l ->. exists []. split; [now rewrite app_nil_r|reflexivity]. }
    rewrite (ctl_response_eq w tr c a m Q Hm RQ) in S. destruct (from_profile m) eqn:FP; cbn [andb orb] in *.
    + destruct (Z.eqb_spec (m_DEOJ m) 0x0EF001) as [DE|DE]; cbn [negb andb] in *; [|apply NIL; congruence].
      destruct (empty_list m); cbn [negb]; [apply NIL; congruence|]. cbv zeta in S.
      unfold announce_found, announce_events in S. unfold profile_before. rewrite Fr. destruct (announces m) as [codes|].
      * cbn [set_found c_found] in S. rewrite (dget_dset String.eqb seqb_eq), String.eqb_refl in S.
        assert (Et : tr' = (tr ++ map (fun l => EvNodeAdd l (found_node a codes)) (c_listeners c)) ++ rec_events (c_listeners c) m (found_node a codes)) by congruence.
        rewrite <- app_assoc in Et. eexists. split; [exact Et|]. rewrite lcalls_app. destruct (found_node_spec a codes) as (FA & _ & _ & _ & FG).
        assert (FI : node_ip (found_node a codes) = fst a) by (unfold node_ip; rewrite FA; reflexivity). f_equal.
        -- apply lcalls_map. intros l. unfold lcalls. cbn [flat_map app]. rewrite FI. reflexivity.
        -- rewrite (rec_lcalls _ m _ (fst a) DE FI (found_tidy PS a codes)). unfold get_object. cbn [new_object set_code fst o_code]. rewrite FG. reflexivity.
      * rewrite app_nil_r in S. destruct (sget (fst a) (c_found c)) as [n|] eqn:G; [|apply NIL; [congruence|reflexivity]].
        assert (Et : tr' = tr ++ rec_events (c_listeners c) m n) by congruence. eexists. split; [exact Et|]. destruct (T _ _ G) as (I & Tn).
        rewrite (rec_lcalls _ m _ (fst a) DE I Tn). reflexivity.
    + assert (AN : announces m = None) by (destruct (announces m) eqn:A; [apply announces_profile in A; destruct A; congruence|reflexivity]).
      cbv zeta in S. unfold announce_found, announce_events in S. rewrite AN, app_nil_r in S. destruct (Z.eqb_spec (m_ESV m) 0x7E) as [E7|].
      * destruct (sget (fst a) (c_found c)) as [n|] eqn:G; [|apply NIL; congruence].
        exists (rec_events (c_listeners c) m n). split; [congruence|]. unfold rec_events. rewrite (frame_7E a m Hm E7).
        destruct (zget (m_DEOJ m) (n_objs n)); reflexivity.
      * apply NIL; congruence.
Qed.

Lemma L_C49_calls_partial : forall (PS : PySet) w tr s c ms s1 tr1 rs a m s2 tr2 r, quiet w -> ln_ctl s = Some c -> c_found c = [] ->
  Forall (fun m => exists a, received_from a m) ms -> received_all w tr s ms = (s1, tr1, rs) ->
  received_from a m -> node_received w tr1 s1 m = (s2, tr2, r) ->
  exists c1 evs, ln_ctl s1 = Some c1 /\ c_listeners c1 = c_listeners c /\ tr2 = tr1 ++ evs /\ lcalls evs = calls_due c1 m.
Proof.
  intros PS w tr s c ms s1 tr1 rs a m s2 tr2 r Q C E F R Hm H.
  destruct (tidy_history PS w ms Q F tr s c s1 tr1 rs C) as (c1 & C1 & T & N); [intros ip n G; rewrite E in G; discriminate|rewrite E; constructor|exact R|].
  destruct (response_calls PS w tr1 s1 c1 a m s2 tr2 r Q C1 Hm T H) as (evs & E1 & L).
  destruct (history_table PS w ms Q F _ _ _ _ _ _ C R) as (c2 & C2 & L2 & _). assert (c2 = c1) by congruence. subst c2. exists c1, evs. auto.
Qed.

Lemma change_not_upd ls ip o ps l i : ~ In (CNodeUpd l i) (change_calls ls ip o ps).
Proof.
  unfold change_calls. destruct (changed (data_at o) ps) as [|x xs]; [auto|]. intros H. rewrite !in_app_iff in H. destruct H as [H|[H|H]].
  - apply in_flat_map in H. destruct H as (p & _ & H). apply in_map_iff in H. destruct H as (y & Y & _). discriminate.
  - apply in_map_iff in H. destruct H as (y & Y & _). discriminate.
  - apply in_map_iff in H. destruct H as (y & Y & _). discriminate.
Qed.
(** Finding: node_updated is never called. *)
Lemma L_C49_updated_refuted : forall (PS : PySet) c m l ip, ~ In (CNodeUpd l ip) (calls_due c m).
Proof.
  intros PS c m l ip. unfold calls_due. destruct (_ && _); [|auto]. intros H. apply in_app_iff in H. destruct H as [H|H].
  - destruct (announces m); [|destruct H]. apply in_map_iff in H. destruct H as (y & Y & _). discriminate.
  - destruct (profile_before c m); [|destruct H]. exact (change_not_upd _ _ _ _ _ _ H).
Qed.

(** Finding: each announcement of a node, known or not, calls node_add twice on every listener. *)
Lemma std_profile_list (PS : PySet) k : k = 0xD5 \/ k = 0xD6 -> data_at (std_obj 0x0EF001) k = Some [].
Proof.
  intros K. unfold data_at. destruct (L_C56_standard_properties PS (PInt 0x0EF001) 0x0EF001 eq_refl) as (o & E & _ & _ & T).
  pose proof (L_C56_no_data PS (PInt 0x0EF001) 0x0EF001 o eq_refl E) as D.
  rewrite (proj1 (std_obj_ok 0x0EF001)) in E. assert (std_obj 0x0EF001 = o) by congruence. subst o. specialize (T k).
  assert (R : exists r, row_for k (object_rows (group_of 0x0EF001) (class_of 0x0EF001)) = Some r).
  { destruct K as [-> | ->]; eexists; vm_compute; reflexivity. }
  destruct R as (r & R). rewrite R in T. destruct T as (p & G & _). rewrite G. cbn [option_map]. f_equal. apply (D k p G).
  cbn [In]. lia.
Qed.
Lemma L_C49_added_refuted : forall (PS : PySet) c m l codes, announces m = Some codes -> In l (c_listeners c) ->
  exists a b d, calls_due c m = a ++ [CNodeAdd l (from_ip m)] ++ b ++ [CNodeAdd l (from_ip m)] ++ d.
Proof.
  intros PS c m l codes A I. unfold calls_due, profile_before. fold (from_profile m). destruct (announces_profile m codes A) as (-> & -> & ->).
  rewrite A. cbn [andb negb]. rewrite Z.eqb_refl. cbn [andb]. rewrite (proj1 (std_obj_ok 0x0EF001)). cbn [fst].
  assert (X : exists p ps, changed (data_at (std_obj 0x0EF001)) (m_props m) = p :: ps).
  { unfold announces in A. fold (from_profile m) in A. destruct (_ && _); [|discriminate]. unfold carries_list in A.
    destruct (m_props m) as [|p ps]; [discriminate|]. destruct (list_property p) eqn:LP; [|discriminate]. unfold list_property in LP.
    cbn [changed]. rewrite std_profile_list by lia. destruct (p_data p) as [|d ds]; [discriminate|]. rewrite same_bytes_eq. cbn [bytes_eqb]. eauto. }
  destruct X as (p & ps & X). unfold change_calls. rewrite X.
  assert (M : exists u v, map (fun x => CNodeAdd x (from_ip m)) (c_listeners c) = u ++ [CNodeAdd l (from_ip m)] ++ v).
  { apply in_split in I. destruct I as (l1 & l2 & ->). rewrite map_app. eexists _, _. reflexivity. }
  destruct M as (u & v & M). rewrite M. set (F := flat_map _ _). set (O := map (fun x => CObjUpd _ _ _) _). clearbody F O.
  exists u, (v ++ F ++ O ++ u), v. rewrite <- !app_assoc. reflexivity.
Qed.

(** ** C65 *)
Lemma create_loop_ok ps : forall m, create_loop m (map (fun p => PPair (p_code p) (p_data p)) ps) = Some (set_props (m_props m ++ ps) m).
Proof.
  induction ps as [|p ps IH]; intros m; cbn [map create_loop].
  - rewrite app_nil_r. destruct m; reflexivity.
  - rewrite IH. destruct p as [c d]. cbn [p_code p_data]. unfold add_property. cbn [to_property is_prop fst].
    destruct m; cbn. rewrite <- app_assoc. reflexivity.
Qed.
Lemma create_loop_bad l : In PBad l -> forall m, create_loop m l = None.
Proof. induction l as [|x l IH]; intros []; intros m; [subst x; reflexivity|]. destruct x; cbn [create_loop]; auto. Qed.
Definition request_msg (code esv : Z) (ps : list prop) : msg := mkmsg 0 0 code esv ps [] [] None None.
Lemma create_ok code esv ps : create_message code esv (pairs ps) = Some (request_msg code esv ps).
Proof. unfold create_message, pairs. rewrite create_loop_ok. reflexivity. Qed.
Lemma create_bad code esv a : malformed a -> create_message code esv a = None.
Proof. destruct a as [l|]; cbn [malformed create_message]; [|reflexivity]. intros H. now apply create_loop_bad. Qed.
Lemma request_wire t code esv ps : two_blocks esv = false ->
  wire (set_TID t (set_SEOJ NP (request_msg code esv ps))) = request_bytes t code esv ps.
Proof.
  intros B. unfold wire, wire_header, wire_body, request_bytes, request_msg. cbn [set_TID set_SEOJ m_ESV m_TID m_SEOJ m_DEOJ m_props]. rewrite B.
  change (be 3 NP) with [0x0E; 0xF0; 0x01]. unfold wire_props. rewrite <- !app_assoc. cbn [app]. reflexivity.
Qed.

Lemma request_encodable code esv ps : byte_ok esv -> fits_list ps -> encodable (request_msg code esv ps).
Proof.
  intros E F. split; [exact E|]. cbn [request_msg m_ESV m_sets m_gets m_props].
  destruct (two_blocks esv); [|exact F]. split; (split; [cbn; lia|constructor]).
Qed.
Lemma local_send_tid w tr s m a s' tr' m' r : m_TID m = 0 -> local_send w tr s m a = (s', tr', m', r) -> m_TID m' = g_tid (ln_mgr s').
Proof.
  intros T. unfold local_send, mgr_send. set (m0 := match ln_ctl s with None => m | Some _ => set_SEOJ NODE_PROFILE_CODE m end).
  assert (T0 : m_TID m0 = 0) by (unfold m0; destruct (ln_ctl s); exact T). unfold assign_TID. rewrite T0. change (0 =? 0) with true. cbn iota.
  destruct (next_TID (ln_mgr s)) as [g1 t] eqn:N. destruct (send_loop w tr (g_servers g1) (set_TID t m0) a) as [[tr1 m2] r1] eqn:E.
  intros [= <- _ <- _]. rewrite (send_loop_tid _ _ _ _ _ _ _ _ E). unfold next_TID in N. assert (g1 = fst (next_TID (ln_mgr s)) /\ t = snd (next_TID (ln_mgr s))) as (-> & ->); [|reflexivity].
  unfold next_TID. cbn [fst snd]. split; congruence.
Qed.
Lemma send_request w tr s c n code esv ps : ln_ctl s = Some c -> byte_ok esv -> fits_list ps -> 0 <= g_tid (ln_mgr s) <= 65535 ->
  exists g' snds m' r, ctl_send w tr s (request_msg code esv ps) (DNode n) = (set_ln_mgr g' s, tr ++ map ev_of snds, m', r) /\
  g_servers g' = g_servers (ln_mgr s) /\ let t := g_tid (ln_mgr s) mod 65535 + 1 in g_tid g' = t /\ m_TID m' = t /\
  tries (wire (set_TID t (set_SEOJ NP (request_msg code esv ps)))) (node_ip n, node_port n) (open_ifs s) snds /\ Forall (from_os w) snds /\
  send_outcome r snds.
Proof.
  intros C E F T. unfold ctl_send. cbn [dest_addr].
  destruct (local_send_ok w tr s (request_msg code esv ps) (node_ip n, node_port n)) as (g' & t & S & G & X & _).
  destruct (X (request_encodable code esv ps E F)) as (snds & m' & r & Q & (Tr & Fo) & R). unfold stamped in S. cbn [request_msg m_TID] in S.
  change (0 =? 0) with true in S. cbn iota in S. destruct (next_TID_mod (ln_mgr s) T) as (N1 & N2). rewrite <- S in N1, N2. cbn [fst snd] in N1, N2.
  exists g', snds, m', r. split; [exact Q|]. split; [exact G|]. cbv zeta. split; [exact N2|].
  unfold source in Tr. rewrite C in Tr. rewrite N1 in Tr. split; [|split; [exact Tr|split; [exact Fo|]]].
  - rewrite (fun H => local_send_tid _ _ _ _ _ _ _ _ _ H Q) by reflexivity. exact N2.
  - unfold send_outcome. destruct r as [b|e]; [|exact R]. destruct R as (R1 & R2). split; [|exact R2].
    intros x e I H. apply (R1 e). exists x. auto.
Qed.

Lemma L_C65_send_partial : forall w tr s c n o esv ps s' tr' r, ln_ctl s = Some c -> byte_ok esv -> two_blocks esv = false -> fits_list ps ->
  0 <= g_tid (ln_mgr s) <= 65535 -> object_send w tr s n o esv (pairs ps) = (s', tr', r) ->
  exists evs, tr' = tr ++ evs /\ length (sent evs) = length evs /\
  tries (request_bytes (g_tid (ln_mgr s) mod 65535 + 1) (o_code o) esv ps) (node_ip n, node_port n) (open_ifs s) (sent evs) /\
  send_outcome r (sent evs).
Proof.
  intros w tr s c n o esv ps s' tr' r C E B F T. unfold object_send. rewrite create_ok.
  destruct (send_request w tr s c n (o_code o) esv ps C E F T) as (g' & snds & m' & r1 & Q & _ & _ & _ & Tr & _ & R). rewrite Q.
  intros [= <- <- <-]. exists (map ev_of snds). split; [reflexivity|]. rewrite sent_evs, map_length. split; [reflexivity|].
  rewrite <- request_wire by exact B. split; [exact Tr|exact R].
Qed.
Lemma L_C65_post_partial : forall w tr s c n o esv ps s' tr' m' r, ln_ctl s = Some c -> byte_ok esv -> two_blocks esv = false -> fits_list ps ->
  0 <= g_tid (ln_mgr s) <= 65535 -> object_post w tr s n o esv (pairs ps) = (s', tr', m', r) ->
  exists evs req c', tr' = tr ++ evs /\ length (sent evs) = length evs /\
  tries (request_bytes (g_tid (ln_mgr s) mod 65535 + 1) (o_code o) esv ps) (node_ip n, node_port n) (open_ifs s) (sent evs) /\
  send_outcome r (sent evs) /\ m' = Some req /\ m_TID req = g_tid (ln_mgr s) mod 65535 + 1 /\
  ln_ctl s' = Some c' /\ c_req c' = Some req /\ c_resp c' = None /\ c_found c' = c_found c.
Proof.
  intros w tr s c n o esv ps s' tr' m' r C E B F T. unfold object_post. rewrite create_ok. unfold post_begin. rewrite C.
  destruct (send_request w tr s c n (o_code o) esv ps C E F T) as (g' & snds & m1 & r1 & Q & _ & _ & M & Tr & _ & R). rewrite Q.
  intros [= <- <- <- <-]. exists (map ev_of snds), m1. eexists. split; [reflexivity|]. rewrite sent_evs, map_length. split; [reflexivity|].
  rewrite <- request_wire by exact B. split; [exact Tr|]. split; [exact R|]. split; [reflexivity|]. split; [exact M|]. split; [reflexivity|]. repeat split.
Qed.
Lemma L_C65_malformed : forall w tr s n o esv a, malformed a ->
  object_send w tr s n o esv a = (s, tr, Ok false) /\ object_post w tr s n o esv a = (s, tr, None, Ok false).
Proof. intros w tr s n o esv a M. unfold object_send, object_post. rewrite create_bad by exact M. auto. Qed.
Lemma L_C65_property : forall w tr s n o p esv d,
  property_send w tr s n o p esv d = object_send w tr s n o esv (pairs [mkprop (op_code p) d]) /\
  property_post w tr s n o p esv d = object_post w tr s n o esv (pairs [mkprop (op_code p) d]).
Proof. intros. split; reflexivity. Qed.
(** Finding: a write-read request is sent without any property. *)
Lemma L_C65_write_read_refuted : forall w tr s c n o ps s' tr' r, ln_ctl s = Some c -> fits_list ps ->
  0 <= g_tid (ln_mgr s) <= 65535 -> object_send w tr s n o 0x6E (pairs ps) = (s', tr', r) ->
  exists evs, tr' = tr ++ evs /\
  tries ([0x10; 0x81] ++ be 2 (g_tid (ln_mgr s) mod 65535 + 1) ++ [0x0E; 0xF0; 0x01] ++ be 3 (o_code o) ++ [0x6E; 0; 0])
    (node_ip n, node_port n) (open_ifs s) (sent evs).
Proof.
  intros w tr s c n o ps s' tr' r C F T. unfold object_send. rewrite create_ok. assert (E : byte_ok 0x6E) by (unfold byte_ok; lia).
  destruct (send_request w tr s c n (o_code o) 0x6E ps C E F T) as (g' & snds & m' & r1 & Q & _ & _ & _ & Tr & _ & R). rewrite Q.
  intros [= <- <- <-]. exists (map ev_of snds). split; [reflexivity|]. rewrite sent_evs. exact Tr.
Qed.

(** ** C47 *)
Definition found_codes (s : lnode) : list Z := 0x0EF001 :: device_codes (node_codes s).
Lemma firsts_id {A} (eqb : A -> A -> bool) (H : forall x y, eqb x y = true <-> x = y) l : NoDup l -> firsts eqb l = l.
Proof.
  induction 1 as [|x l N _ IH]; [reflexivity|]. cbn [firsts]. rewrite IH. f_equal.
  clear IH. induction l as [|y l IH]; [reflexivity|]. cbn [filter]. destruct (eqb x y) eqn:E.
  - apply H in E. subst y. exfalso. apply N. now left.
  - cbn [negb]. f_equal. apply IH. intros I. apply N. now right.
Qed.
Lemma search_encodable : encodable search_message.
Proof. repeat split; try (repeat constructor; try discriminate; cbn; lia); vm_compute; congruence. Qed.
Lemma search_bytes w tr s c : ln_ctl s = Some c -> exists g' t snds r, ctl_search w tr s = (set_ln_mgr g' s, tr ++ map ev_of snds, r) /\
  casts (wire (set_TID t search_message)) MULTICAST (open_ifs s) snds /\ Forall (from_os w) snds /\ g_servers g' = g_servers (ln_mgr s) /\
  (0 <= g_tid (ln_mgr s) <= 65535 -> t = g_tid (ln_mgr s) mod 65535 + 1).
Proof.
  intros C. unfold ctl_search. destruct (local_announce_ok w tr s search_message) as (g' & t & S & G & X & _).
  destruct X as (snds & m' & r & Q & (Cs & F) & _).
  { exact search_encodable. }
  rewrite Q. exists g', t, snds, r. split; [reflexivity|]. split; [unfold source in Cs; rewrite C in Cs; exact Cs|]. split; [exact F|]. split; [exact G|].
  intros T. unfold stamped in S. change (m_TID search_message =? 0) with true in S. cbn iota in S. destruct (next_TID_mod (ln_mgr s) T) as (N1 & _). rewrite <- S in N1. exact N1.
Qed.
Lemma search_frame t : 0 < t < 65536 -> frame_msg (set_TID t search_message).
Proof.
  intros T. split; [|split].
  - exact search_encodable.
  - repeat constructor.
  - unfold carried. cbn -[Z.modulo]. rewrite (Z.mod_small t) by lia. reflexivity.
Qed.

Lemma L_C47_round_trip : forall (PS : PySet) c0 r0 s0 ops w tr0 l0 s1 tr1 ms s2 tr2 rs
    wc trc sc c sc1 trc1 rc evc x ac,
  (* a node with up to 84 devices, started, after any received messages *)
  new_local c0 r0 = (s0, Ok tt) -> no_profile ops ->
  let s := fst (local_adds ops s0) in let l := device_codes (node_codes s) in
  zlen l <= 84 -> Forall (fun k => 0 <= k < 2 ^ 24) l ->
  local_start w tr0 s l0 = (s1, tr1, Ok true) ->
  Forall (fun m => exists a, received_from a m) ms -> received_all w tr1 s1 ms = (s2, tr2, rs) ->
  quiet w -> reliable w ->
  (* a controller searches; [x] is one of the datagrams it sends *)
  quiet wc -> ln_ctl sc = Some c -> 0 <= g_tid (ln_mgr sc) <= 65535 -> ctl_search wc trc sc = (sc1, trc1, rc) -> trc1 = trc ++ evc -> In x (sent evc) ->
  exists q, parse_bytes new_msg (send_bytes x) = (q, Ok true) /\ snd (fst x) = ("224.0.23.0"%string, 3610) /\
  (* the node receives it from address [ac] and answers with one datagram *)
  forall s3 tr3 r3, node_received w tr2 s2 (set_from (Some ac) q) = (s3, tr3, r3) ->
  exists evs i b n rsp, tr3 = tr2 ++ evs /\ sent evs = [(i, b, ac, Ok n)] /\ r3 = Ok tt /\ parse_bytes new_msg b = (rsp, Ok true) /\
  (* which the controller, in any state, receives from the node's address [an] *)
  forall an trn sn cn sn' trn' rn, ln_ctl sn = Some cn -> node_received wc trn sn (set_from (Some an) rsp) = (sn', trn', rn) ->
  rn = Ok tt /\ exists cn' nd, ln_ctl sn' = Some cn' /\ get_node wc trn' cn' (GATup (fst an)) = Ok (Some nd) /\
  n_addr nd = Some an /\ map o_code (node_objects nd) = 0x0EF001 :: l.
Proof.
  intros PS c0 r0 s0 ops w tr0 l0 s1 tr1 ms s2 tr2 rs wc trc sc c sc1 trc1 rc evc x ac N P s l Hl Rg ST F R Q Rl Qc C T SE Et Ix.
  destruct (search_bytes wc trc sc c C) as (g' & t & snds & r & E & Cs & _ & _ & Tt). specialize (Tt T).
  assert (Tr : 0 < t < 65536) by (subst t; pose proof (Z.mod_pos_bound (g_tid (ln_mgr sc)) 65535); lia).
  rewrite SE in E. injection E as _ Ev _. rewrite Et in Ev. apply app_inv_head in Ev. subst evc. rewrite sent_evs in Ix.
  destruct (casts_all _ _ _ _ Cs x Ix) as (Bx & Dx). pose proof (search_frame t Tr) as Fr.
  exists (set_TID t search_message). split.
  { rewrite Bx, <- (app_nil_r (wire _)), parse_wire, overlay_new. destruct Fr as (_ & _ & ->). reflexivity. }
  split; [exact Dx|]. intros s3 tr3 r3 H.
  pose proof (ready_history PS c0 r0 s0 ops w tr0 l0 s1 tr1 ms s2 tr2 rs N P ST F R) as RD.
  assert (Hm : received_from ac (set_from (Some ac) (set_TID t search_message))) by (eexists; split; [exact Fr|reflexivity]).
  destruct (search_answer PS w tr2 s2 ac _ _ s3 tr3 r3 Q Rl RD Hm (conj eq_refl (conj eq_refl eq_refl)) H) as (evs & -> & A & _).
  destruct (A Hl) as (i & b & n & rsp & Bo & Sn & Ro & Pa & E1 & E2 & E3 & E4 & E5). change (device_codes (node_codes (fst (local_adds ops s0)))) with l in E5.
  exists evs, i, b, n, rsp. split; [reflexivity|]. split; [exact Sn|]. split; [exact Ro|]. split; [exact Pa|].
  intros an trn sn cn sn' trn' rn Cn Hn. set (m := set_from (Some an) rsp) in *.
  assert (Hr : received_from an m) by (exists rsp; split; [apply (parse_new_iff b rsp Bo) in Pa; apply Pa|reflexivity]).
  assert (ND : NoDup (0x0EF001 :: l)).
  { destruct (node_after_adds c0 r0 ops s0 N P) as (_ & NC & _). fold s in NC.
    assert (NN : NoDup (node_codes s)) by (rewrite NC; apply (firsts_nodup Z.eqb zeqb_eq)).
    constructor; [|apply NoDup_filter; exact NN]. unfold l, device_codes. rewrite filter_In. intros (_ & X). discriminate. }
  assert (AN : announces m = Some l).
  { unfold announces. cbn [m set_from m_ESV m_DEOJ]. rewrite E1, E3. change (m_SEOJ (set_from (Some ac) (set_TID t search_message))) with 0x0EF001.
    change ((0x72 =? 0x72) || (0x72 =? 0x73)) with true. change (0x0EF001 =? 0x0EF001) with true. cbn [andb].
    unfold carries_list. change (m_props m) with (m_props rsp). rewrite E5. cbn [list_property p_code p_data]. change ((0xD6 =? 0xD5) || (0xD6 =? 0xD6)) with true. cbn iota.
    apply L_C45_instance_list.
    - constructor; [pose proof (zlen_nonneg l); unfold byte_ok; lia|]. clear. unfold bytes_ok. induction l as [|y l IH]; [constructor|]. cbn [flat_map]. apply Forall_app. split; [apply be_ok|exact IH].
    - split; [exists []; now rewrite app_nil_r|exact Rg]. }
  assert (NR : is_request (m_ESV m) = false) by (cbn [m set_from m_ESV]; rewrite E1; reflexivity).
  destruct (step_of PS wc trn sn cn an m sn' trn' rn Qc Cn Hr Hn) as (cn' & Cn' & _ & S). specialize (S NR).
  destruct (found_step PS wc trn cn an m cn' trn' rn Qc Hr NR S) as (_ & _ & _ & FN). rewrite AN in FN. destruct (FN _ eq_refl) as (nd & G & D).
  destruct (found_node_spec an l) as (FA & _ & FC & _). rewrite (firsts_id Z.eqb zeqb_eq _ ND) in FC.
  split.
  - destruct rn as [[]|e]; [reflexivity|]. exfalso. pose proof (proj1 (response_result PS wc trn sn cn an m sn' trn' _ Qc Cn Hr NR Hn e) eq_refl) as X.
    destruct (announces_profile m l AN) as (_ & DE & EL). unfold raises in X. destruct e; try contradiction.
    + destruct X as (_ & _ & X). congruence.
    + destruct X as [(_ & X)|(_ & X & _)]; congruence.
  - exists cn', nd. split; [exact Cn'|]. split; [rewrite get_node_tup, G; reflexivity|].
    destruct D as [->|(_ & ->)]; [split; [exact FA|exact FC]|].
    destruct (rec_node_keeps m (found_node an l)) as (Y1 & Y2 & _). rewrite Y1, Y2. auto.
Qed.
