(** Lemmas for C73 and C74. *)
From Coq Require Import Decimal DecimalString DecimalZ.
From Verif Require Import PyBase BytesM MsgM PropM ObjM DbData DbM DictP SpecObj SpecMap SpecReq ObjP ReqP MapP SpecDb DbP NodeM LocalM CtrlM SpecNode NodeP SpecLocal LocalP AnswerP SpecCtrl CtrlP SpecWire SpecHex BytesP WireP CodecP ToolM SpecTool.

Lemma digits_str d : no_leading_zero (Digits d) -> py_str (LInt (Z.of_uint d)) = NilEmpty.string_of_uint d.
Proof.
  intros H. cbn [py_str]. change (Z.of_uint d) with (Z.of_int (Pos d)). rewrite DecimalZ.to_of. cbn [norm]. destruct d; cbn in H; try contradiction; reflexivity.
Qed.
Lemma field_str f s : spelled f = Some s -> no_leading_zero f -> py_str (evaluated f) = s.
Proof. destruct f as [q|d|z]; cbn [spelled]; intros [= <-] H; [reflexivity|]. exact (digits_str d H). Qed.

Lemma L_C73_message_partial : forall obj bo esv be args (l : list prop),
  hex_text obj bo -> hex_text esv be ->
  (* each tuple is (code) or (code, data) *)
  Forall2 (fun (a : field * option field) p => no_leading_zero (fst a) /\
     (exists b, spells (fst a) b /\ p_code p = be_val b) /\
     match snd a with None => p_data p = [] | Some f => no_leading_zero f /\ spells f (p_data p) end) args l ->
  tool_message obj esv (map (fun a => evaluated (fst a) :: match snd a with None => [] | Some f => [evaluated f] end) args)
  = Ok (mkmsg 0 0 (be_val bo) (be_val be) l [] [] None None).
Proof.
  intros obj bo esv be args l Ho He F. unfold tool_message. rewrite (L_C02_hex_from_string _ _ Ho). cbn [bindr]. rewrite (L_C02_hex_from_string _ _ He). cbn [bindr].
  change (set_ESV (be_val be) (set_DEOJ (be_val bo) new_msg)) with (mkmsg 0 0 (be_val bo) (be_val be) [] [] [] None None).
  enough (G : forall k, tool_properties (mkmsg 0 0 (be_val bo) (be_val be) k [] [] None None) (map (fun a => evaluated (fst a) :: match snd a with None => [] | Some f => [evaluated f] end) args) = Ok (mkmsg 0 0 (be_val bo) (be_val be) (k ++ l) [] [] None None)) by exact (G []).
  induction F as [|a p args l H F IH]; intros k; cbn [map tool_properties]; [rewrite app_nil_r; reflexivity|].
  destruct H as (N1 & (b & (s & Es & Hs) & C) & D).
  assert (E : tool_property (evaluated (fst a) :: match snd a with None => [] | Some f => [evaluated f] end) = Ok p).
  { destruct (snd a) as [f|]; cbn [tool_property]; rewrite (field_str _ _ Es N1), (L_C02_hex_from_string _ _ Hs); cbn [bindr].
    - destruct D as (N2 & s2 & Es2 & Hs2). rewrite (field_str _ _ Es2 N2). rewrite (proj2 (proj1 (L_C02_from_string s2) _) Hs2). cbn [bindr]. destruct p; cbn in *; congruence.
    - destruct p; cbn in *; congruence. }
  rewrite E. cbn [bindr]. 
  change (fst (add_property (PAProp p) (mkmsg 0 0 (be_val bo) (be_val be) k [] [] None None))) with (mkmsg 0 0 (be_val bo) (be_val be) (k ++ [p]) [] [] None None).
  rewrite IH. rewrite <- app_assoc. reflexivity.
Qed.
(** Ints in another base and zeros: refused, or silently another value. *)
Lemma L_C73_numbers_refuted :
  (* (0x80,) and (80,00) raise; (80,0x30) sends 0x48 *)
  tool_message "029101" "61" [[evaluated (Based 0x80)]] = Err ValueError /\
  tool_message "029101" "61" [[evaluated (Digits (D8 (D0 Nil))); evaluated (Digits (D0 (D0 Nil)))]] = Err ValueError /\
  tool_message "029101" "61" [[evaluated (Digits (D8 (D0 Nil))); evaluated (Based 0x30)]] =
    Ok (mkmsg 0 0 0x029101 0x61 [mkprop 0x80 [0x48]] [] [] None None).
Proof. repeat split. Qed.
(** A write-read request is sent without its properties. *)
Lemma L_C73_write_read_refuted : forall obj l m, tool_message obj "6E" l = Ok m -> m_sets m = [] /\ m_gets m = [] /\
  (forall b, to_bytes m = Ok b -> exists h, length h = 10%nat /\ b = h ++ [0x6E; 0; 0]).
Proof.
  intros obj l m H. unfold tool_message in H. destruct (hex_from_string obj) as [d|]; [|discriminate]. cbn [bindr] in H.
  change (hex_from_string "6E") with (Ok 0x6E) in H. cbn [bindr] in H. 
  assert (K : forall l m0, m_ESV m0 = 0x6E -> m_sets m0 = [] -> m_gets m0 = [] -> tool_properties m0 l = Ok m -> m_ESV m = 0x6E /\ m_sets m = [] /\ m_gets m = []).
  { clear. induction l as [|t l IH]; intros m0 A B C H; cbn [tool_properties] in H; [injection H as <-; auto|]. destruct (tool_property t) as [p|]; [|discriminate]. cbn [bindr] in H.
    revert H. apply IH; assumption. }
  destruct (K l (set_ESV 110 (set_DEOJ d new_msg)) eq_refl eq_refl eq_refl H) as (A & B & C). split; [exact B|]. split; [exact C|]. intros b Hb.
  apply to_bytes_inv in Hb as (_ & ->). unfold wire, wire_body, wire_header. rewrite A, B, C. change (two_blocks 0x6E) with true. cbn iota. unfold wire_props. cbn [flat_map].
  change (zlen (@nil prop)) with 0. exists ([0x10; 0x81] ++ be 2 (m_TID m) ++ be 3 (m_SEOJ m) ++ be 3 (m_DEOJ m)). split.
  - rewrite !app_length, !be_length. reflexivity.
  - rewrite <- !app_assoc. reflexivity.
Qed.

(** ** C74 *)
Lemma std_obj_nodup (PS : PySet) k : NoDup (dkeys (o_props (std_obj k))).
Proof.
  destruct (new_standard_ok (PInt k) k eq_refl) as (o & E & T & _).
  rewrite (proj1 (std_obj_ok k)) in E. assert (std_obj k = with_maps o) by congruence. rewrite H. exact (proj1 (with_maps_tracks _ _ T)).
Qed.
Lemma rule_required s : attribute_required (rule_attr s) = true <-> In s ["mandatory"; "required"]%string.
Proof.
  unfold rule_attr. cbn [In]. destruct (String.eqb_spec s "mandatory"%string) as [->|N1]; [split; [auto|reflexivity]|].
  destruct (String.eqb_spec s "required"%string) as [->|N2]; [split; [auto|reflexivity]|]. cbn [orb].
  split; [|intros [E|[E|[]]]; congruence]. destruct (String.eqb s "optional"%string); discriminate.
Qed.
Definition reads_obj (o : obj) : list (Z * Z) := map (fun p => (o_code o, op_code p)) (filter is_read_required (dvals (o_props o))).
Lemma dvals_codes o : wf_obj o -> NoDup (dkeys (o_props o)) -> map op_code (dvals (o_props o)) = dkeys (o_props o).
Proof.
  intros W N. unfold dvals, dkeys. rewrite map_map. apply map_ext_in. intros (k, p) I. apply W. cbn [fst snd].
  apply (in_dget Z.eqb zeqb_eq); assumption.
Qed.
Lemma reads_obj_in o k x : wf_obj o -> NoDup (dkeys (o_props o)) ->
  (In (k, x) (reads_obj o) <-> k = o_code o /\ exists p, get_property x o = Some p /\ is_read_required p = true).
Proof.
  intros W N. unfold reads_obj. rewrite in_map_iff. split.
  - intros (p & E & I). apply filter_In in I. destruct I as (I & R). split; [congruence|]. exists p. split; [|exact R].
    unfold dvals in I. apply in_map_iff in I. destruct I as ((k0 & p0) & E0 & I). cbn [snd] in E0. subst p0.
    apply (in_dget Z.eqb zeqb_eq) in I; [|exact N]. pose proof (W k0 p I). assert (x = k0) by congruence. subst x. exact I.
  - intros (-> & p & G & R). exists p. split; [f_equal; exact (W x p G)|]. apply filter_In. split; [|exact R].
    unfold dvals. apply in_map_iff. exists (x, p). split; [reflexivity|]. now apply (dget_in Z.eqb zeqb_eq).
Qed.
Lemma nodup_filter_map {A B} (f : A -> B) q l : NoDup (map f l) -> NoDup (map f (filter q l)).
Proof.
  induction l as [|a l IH]; intros H; [constructor|]. inversion H as [|? ? N H']; subst. cbn [filter]. destruct (q a); [|auto].
  cbn [map]. constructor; [|auto]. intros I. apply N. apply in_map_iff in I. destruct I as (b & E & I). apply filter_In in I. apply in_map_iff. exists b. tauto.
Qed.
Lemma reads_obj_nodup o : wf_obj o -> NoDup (dkeys (o_props o)) -> NoDup (reads_obj o).
Proof.
  intros W N. apply (NoDup_map_inv snd). unfold reads_obj. rewrite map_map. cbn [snd]. apply nodup_filter_map. now rewrite dvals_codes.
Qed.
Lemma flat_nodup l : NoDup (map o_code l) -> (forall o, In o l -> NoDup (reads_obj o)) -> NoDup (flat_map reads_obj l).
Proof.
  induction l as [|o l IH]; intros H D; [constructor|]. inversion H as [|? ? N H']; subst. cbn [flat_map].
  assert (A : forall l1 l2 : list (Z * Z), NoDup l1 -> NoDup l2 -> (forall e, In e l1 -> ~ In e l2) -> NoDup (l1 ++ l2)).
  { induction l1 as [|e l1 IH1]; intros l2 N1 N2 X; [exact N2|]. inversion N1; subst. cbn [app]. constructor.
    - rewrite in_app_iff. intros [I|I]; [contradiction|]. apply (X e); [now left|exact I].
    - apply IH1; [assumption|assumption|]. intros e' I. apply X. now right. }
  apply A; [apply D; now left|apply IH; [exact H'|intros o' I; apply D; now right]|].
  intros e I J. apply in_flat_map in J. destruct J as (o' & I' & J). apply N. unfold reads_obj in I, J.
  apply in_map_iff in I. destruct I as (p & <- & _). apply in_map_iff in J. destruct J as (p' & E & _). apply in_map_iff. exists o'. split; [congruence|exact I'].
Qed.

Lemma L_C74_reads : forall (PS : PySet) a m codes, typed m -> carries_list m = Some codes ->
  exists n n', new_remote (Some a) = (n, Ok tt) /\ remote_parse m n = (n', Ok true) /\ NoDup (search_reads n') /\
    forall k x, In (k, x) (search_reads n') <->
      In k (0x0EF001 :: codes) /\
      exists r, row_for x (object_rows (group_of k) (class_of k)) = Some r /\ In (fst (fst (snd r))) ["mandatory"; "required"]%string.
Proof.
  intros PS a m codes T C. exists (add_std [0x0EF001] (new_node (Some a))), (found_node a codes). split; [apply new_remote_eq|].
  assert (E : empty_list m = false).
  { revert C. unfold carries_list, empty_list. destruct (m_props m) as [|p ps]; [discriminate|]. destruct (list_property p); [|discriminate]. destruct (p_data p); [discriminate|reflexivity]. }
  split; [rewrite remote_parse_eq by exact T; rewrite E, C; exact eq_refl|].
  destruct (found_node_spec a codes) as (_ & K & OC & S & _). remember (found_node a codes) as n eqn:En.
  assert (N : NoDup (dkeys (n_objs n))) by (rewrite K; apply (firsts_nodup Z.eqb zeqb_eq)).
  assert (O : forall o, In o (node_objects n) -> exists k, zget k (n_objs n) = Some o /\ o = std_obj k).
  { intros o I. unfold node_objects, dvals in I. apply in_map_iff in I. destruct I as ((k & o0) & Eo & I). cbn [snd] in Eo. subst o0.
    apply (in_dget Z.eqb zeqb_eq) in I; [|exact N]. exists k. split; [exact I|]. pose proof (S k o I) as X. rewrite (proj1 (std_obj_ok k)) in X. congruence. }
  change (search_reads n) with (flat_map reads_obj (node_objects n)). split.
  - apply flat_nodup; [rewrite OC; apply (firsts_nodup Z.eqb zeqb_eq)|]. intros o I. destruct (O o I) as (k & _ & ->).
    apply reads_obj_nodup; [apply std_obj_wf|apply std_obj_nodup].
  - intros k x. rewrite in_flat_map.
    assert (P : forall c, (exists p, get_property x (std_obj c) = Some p /\ is_read_required p = true) <->
      exists r, row_for x (object_rows (group_of c) (class_of c)) = Some r /\ In (fst (fst (snd r))) ["mandatory"; "required"]%string).
    { intros c. destruct (L_C56_standard_properties PS (PInt c) c eq_refl) as (o & E1 & _ & _ & X).
      rewrite (proj1 (std_obj_ok c)) in E1. assert (std_obj c = o) by congruence. subst o. specialize (X x).
      destruct (row_for x (object_rows (group_of c) (class_of c))) as [r|].
      - destruct X as (p & G & (_ & M & _)). unfold is_read_required. split.
        + intros (p' & G' & R). exists r. split; [reflexivity|]. assert (p' = p) by congruence. subst p'. rewrite M in R. now apply rule_required.
        + intros (r' & [= <-] & R). exists p. split; [exact G|]. rewrite M. now apply rule_required.
      - split; [intros (p & G & _); congruence|intros (r & G & _); discriminate]. }
    split.
    + intros (o & I & J). destruct (O o I) as (c & G & ->). destruct (proj1 (reads_obj_in (std_obj c) k x (std_obj_wf PS c) (std_obj_nodup PS c)) J) as (Ek & J'). subst k. rewrite (proj2 (std_obj_ok c)). split; [|exact (proj1 (P c) J')].
      assert (F : In c (dkeys (n_objs n))) by (apply (dget_in Z.eqb zeqb_eq) in G; unfold dkeys; apply in_map_iff; exists (c, std_obj c); split; [reflexivity|exact G]).
      rewrite K in F. exact (proj1 (firsts_in Z.eqb zeqb_eq (0x0EF001 :: codes) c) F).
    + intros (I & R). assert (F : In k (dkeys (n_objs n))) by (rewrite K; exact (proj2 (firsts_in Z.eqb zeqb_eq (0x0EF001 :: codes) k) I)).
      unfold dkeys in F. apply in_map_iff in F. destruct F as ((k0 & o) & E0 & F). cbn [fst] in E0. subst k0.
      exists o. assert (I' : In o (node_objects n)) by (unfold node_objects, dvals; apply in_map_iff; exists (k, o); split; [reflexivity|exact F]).
      split; [exact I'|]. apply (in_dget Z.eqb zeqb_eq) in F; [|exact N]. pose proof (S k o F) as X. rewrite (proj1 (std_obj_ok k)) in X.
      assert (o = std_obj k) by congruence. subst o. apply (proj2 (reads_obj_in (std_obj k) k x (std_obj_wf PS k) (std_obj_nodup PS k))). split; [symmetry; apply std_obj_ok|exact (proj2 (P k) R)].
Qed.
