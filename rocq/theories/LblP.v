(** Lemmas about the names of plain objects and profiles (C118). *)
From Verif Require Import PyBase BytesM EsvM MsgM PropM ObjM DbData DbM NameData NameM SpecObj SpecMap SpecReq SpecDb SpecName SpecLbl
  NodeM LocalM CtrlM SpecWire SpecNode SpecLocal SpecCtrl LogM BenchM OutM SpecLog SpecBench SpecOut DictP BytesP ObjP MapP ReqP DbP CtrlP OutP NameP.
Require Import ZifyBool.

Definition plain_like (x : lobj) : Prop := wfl x /\ o_handler (lo_obj x) = HNone /\ o_cls (lo_obj x) = CObject.
Lemma plain_ok (PS : PySet) op x x' b : plain_like x -> l_step op x = (x', b) ->
  plain_like x' /\ b = true /\ (forall k, desc x' k = plain_next (desc x) op k) /\ o_name (lo_obj x') = o_name (lo_obj x) /\ o_code (lo_obj x') = fst (match op with OCode a => set_code (o_code (lo_obj x)) a | _ => (o_code (lo_obj x), true) end) /\
  lo_obj x' = plain_step (lo_obj x) op.
Proof.
  intros (W & Hh & Hc) E. destruct op as [c d|p l|a|m]; cbn [l_step] in E.
  - assert (x' = with_obj (fst (set_property_data c d (lo_obj x))) x /\ b = true) as (-> & ->) by (split; congruence). pose proof (vc_data c d (lo_obj x)) as V. destruct (wfl_values _ x W V) as (W' & D).
    destruct V as (_ & _ & V1 & V2 & V3 & V4). split; [split; [exact W'|]; cbn [lo_obj with_obj]; split; congruence|]. split; [reflexivity|]. split; [exact D|]. split; [exact V2|]. split; [exact V1|reflexivity].
  - unfold l_add in E. rewrite Hc in E. assert (x' = l_add_base p l x /\ b = true) as (-> & ->) by (split; congruence). destruct (wfl_add_base p l x W) as (W' & D).
    split; [split; [exact W'|split; assumption]|]. split; [reflexivity|]. split; [exact D|]. split; [reflexivity|]. split; [reflexivity|]. cbn [plain_step]. unfold obj_add_property. rewrite Hc. reflexivity.
  - unfold l_set_code in E. rewrite Hc in E. cbn [plain_step]. unfold obj_set_code. rewrite Hc. destruct (set_code (o_code (lo_obj x)) a) as [c ok] eqn:S0. assert (x' = with_obj (set_o_code c (lo_obj x)) x /\ b = true) as (-> & ->) by (split; congruence).
    split; [split; [exact W|split; assumption]|]. repeat split; auto.
  - rewrite L_C26_no_answer in E by (right; exact Hh). assert (x' = x /\ b = true) as (-> & ->) by (destruct x; split; unfold with_obj in E; cbn in *; congruence).
    split; [split; [exact W|split; assumption]|]. cbn [plain_step]. rewrite L_C26_no_answer by (right; exact Hh). repeat split; auto.
Qed.
Lemma code_next_is c op : code_next c op = fst (match op with OCode a => set_code c a | _ => (c, true) end).
Proof.
  destruct op as [? ?|? ?|a|?]; try reflexivity. destruct a as [|l| | |]; try reflexivity. destruct l as [|g [|d [|i [|? ?]]]]; try reflexivity; cbn [set_code code_next fst].
  - rewrite tuple2_code. unfold compose. lia.
  - rewrite tuple3_code. unfold compose. lia.
Qed.
Lemma plain_next_ext ops : forall d d', (forall k, d k = d' k) -> forall k, fold_left plain_next ops d k = fold_left plain_next ops d' k.
Proof.
  induction ops as [|op ops IH]; intros d d' H k; [apply H|]. cbn [fold_left]. apply IH. intros j. unfold plain_next. destruct op; rewrite ?H; reflexivity.
Qed.
Lemma plain_run (PS : PySet) ops : forall x x' bs, plain_like x -> l_run ops x = (x', bs) ->
  plain_like x' /\ Forall (eq true) bs /\ (forall k, desc x' k = fold_left plain_next ops (desc x) k) /\ o_name (lo_obj x') = o_name (lo_obj x) /\
  o_code (lo_obj x') = fold_left code_next ops (o_code (lo_obj x)) /\ lo_obj x' = fold_left plain_step ops (lo_obj x).
Proof.
  induction ops as [|op ops IH]; intros x x' bs H E; cbn [l_run] in E.
  - assert (x' = x /\ bs = []) as (-> & ->) by (split; congruence). split; [exact H|]. repeat split; auto.
  - destruct (l_step op x) as [x1 b] eqn:E1. destruct (l_run ops x1) as [x2 bs2] eqn:E2. assert (x2 = x' /\ bs = b :: bs2) as (-> & ->) by (split; congruence).
    destruct (plain_ok PS op x x1 b H E1) as (H1 & -> & D1 & N1 & C1 & P1). destruct (IH x1 x' bs2 H1 E2) as (H2 & B2 & D2 & N2 & C2 & P2). split; [exact H2|]. split; [constructor; auto|].
    cbn [fold_left]. rewrite code_next_is, <- C1, <- P1. split; [|split; [congruence|split; [exact C2|exact P2]]]. intros k. rewrite D2. apply plain_next_ext. exact D1.
Qed.
Lemma L_C118_plain : forall (PS : PySet) a ops x bs, l_run ops (mklobj (new_object a) []) = (x, bs) ->
  Forall (eq true) bs /\ o_name (lo_obj x) = ""%string /\ o_code (lo_obj x) = fold_left code_next (OCode a :: ops) 0 /\
  lo_obj x = fold_left plain_step ops (new_object a) /\ forall k, says x k (fold_left plain_next ops (fun _ => None) k).
Proof.
  intros PS a ops x bs R. assert (P : plain_like (mklobj (new_object a) [])) by (split; [apply blank_wfl; reflexivity|split; reflexivity]).
  destruct (plain_run PS ops _ x bs P R) as ((W & _) & B & D & N & C & S0). split; [exact B|]. split; [exact N|]. split; [|split; [exact S0|]].
  - rewrite C. cbn [fold_left]. rewrite code_next_is. reflexivity.
  - intros k. eapply says_ext; [|apply desc_says, W]. rewrite D. apply plain_next_ext. reflexivity.
Qed.
(** ** Profiles *)
Definition prof_like (x : lobj) : Prop := wfl x /\ o_handler (lo_obj x) = HSuper /\ o_cls (lo_obj x) = CProfile.
Lemma copy_frame_std (PS : PySet) s y y' q : copy_std s y = (y', q) -> o_handler y' = o_handler y /\ o_cls y' = o_cls y.
Proof.
  destruct s as [src|]; cbn [copy_std]; [|intros [= <- _]; split; reflexivity]. unfold set_object_properties. destruct (add_all _ _) as [y1 q1] eqn:A. apply add_all_frame in A as (_ & _ & A1 & A2 & _). destruct q1; cbn [obind]; intros [= <- _]; split; assumption.
Qed.
Lemma prof_set_code (PS : PySet) a x x' r : prof_like x -> l_profile_set_code a x = (x', r) ->
  prof_like x' /\ profile_set_code a (lo_obj x) = (lo_obj x', r) /\
  (forall b, r = Ok b -> (forall k, desc x' k = profile_next (desc x) (OCode a) k) /\ o_name (lo_obj x') = profile_name_next (o_name (lo_obj x)) (OCode a)).
Proof.
  intros (W & Hh & Hc). unfold l_profile_set_code, profile_set_code. cbn [profile_next profile_name_next]. destruct (set_code (o_code (lo_obj x)) a) as [c ok] eqn:S0.
  set (y := with_obj _ x). assert (Wy : wfl y) by exact W. destruct ok; cbn [negb].
  2:{ assert (N : forall code, set_code 0 a <> (code, true)) by (intros code H; apply (set_code_indep _ (o_code (lo_obj x))) in H; congruence).
      intros [= <- <-]. split; [split; [exact Wy|split; assumption]|]. split; [reflexivity|]. intros b _. destruct (set_code 0 a) as [code []]; [|split; reflexivity]. destruct (N code eq_refl). }
  apply (set_code_indep _ 0) in S0. rewrite S0. rewrite (l_db_ok a c S0), (db_get_ok a c S0).
  destruct (l_copy_std (option_map l_build (full_of (group_of c) (class_of c))) y) as [x2 [[]|e2]] eqn:E2; destruct (copy_class PS _ _ y x2 _ Wy E2) as (C2 & W2 & D2); cbn [lo_obj y with_obj] in C2; rewrite C2; cbn [obind].
  2:{ intros [= <- <-]. apply copy_frame_std in C2 as (A & B). split; [split; [exact W2|split; [rewrite A; exact Hh|rewrite B; exact Hc]]|]. split; [reflexivity|]. discriminate. }
  intros E3. destruct (wfl_update PS _ _ _ W2 E3) as (C3 & W3 & D3). pose proof (copy_frame_std PS _ _ _ _ C2) as (A & B). cbn [o_handler o_cls set_o_code] in A, B.
  pose proof C3 as V. apply vc_update in V as (_ & _ & _ & V2 & V3 & V4). split; [split; [exact W3|split; congruence]|]. split; [exact C3|]. intros b _. split.
  - intros k. rewrite D3, (D2 eq_refl). change (desc y k) with (desc x k). unfold class_desc. destruct (find _ _); reflexivity.
  - rewrite V2. apply copy_name in C2. rewrite C2. cbn [o_name set_o_code]. destruct (std_entry_of _ _) as [[[[n g] cc] rs]|]; reflexivity.
Qed.
Lemma prof_ok (PS : PySet) op x x' b : prof_like x -> l_step op x = (x', b) -> prof_like x' /\ lo_obj x' = plain_step (lo_obj x) op /\
  (match op with OCode _ => b = true | _ => True end -> (forall k, desc x' k = profile_next (desc x) op k) /\ o_name (lo_obj x') = profile_name_next (o_name (lo_obj x)) op).
Proof.
  intros P E. pose proof P as (W & Hh & Hc). destruct op as [c d|p l|a|m]; cbn [l_step] in E.
  - assert (x' = with_obj (fst (set_property_data c d (lo_obj x))) x) by congruence. subst x'. pose proof (vc_data c d (lo_obj x)) as V. destruct (wfl_values _ x W V) as (W' & D).
    destruct V as (_ & _ & _ & V2 & V3 & V4). split; [split; [exact W'|cbn [lo_obj with_obj]; split; congruence]|]. split; [reflexivity|]. intros _. split; [exact D|exact V2].
  - unfold l_add in E. rewrite Hc in E. destruct (l_add_super p l x) as [y r] eqn:A. assert (y = x') by congruence. subst y. destruct (wfl_add_super PS _ _ _ _ _ W A) as (S0 & W' & D).
    cbn [plain_step]. unfold obj_add_property. rewrite Hc, S0. apply super_add_frame in S0 as (_ & N & S1 & S2 & _). split; [split; [exact W'|split; congruence]|]. split; [reflexivity|]. intros _. split; [exact D|exact N].
  - unfold l_set_code in E. rewrite Hc in E. destruct (l_profile_set_code a x) as [y r] eqn:A. assert (y = x') by congruence. subst y. destruct (prof_set_code PS a x x' r P A) as (P' & S0 & D).
    split; [exact P'|]. cbn [plain_step]. unfold obj_set_code. rewrite Hc, S0. split; [reflexivity|]. intros Hb. destruct r as [b0|e]; [exact (D b0 eq_refl)|congruence].
  - cbn [plain_step]. destruct (obj_message_received (lo_obj x) m) as [[o t] r] eqn:A. assert (x' = with_obj o x) by congruence. subst x'. apply (vc_msg _ _ _ _ _ Hh) in A. destruct (wfl_values _ x W A) as (W' & D).
    destruct A as (_ & _ & _ & V2 & V3 & V4). split; [split; [exact W'|cbn [lo_obj with_obj]; split; congruence]|]. split; [reflexivity|]. intros _. split; [exact D|exact V2].
Qed.
Lemma profile_next_ext ops : forall d d', (forall k, d k = d' k) -> forall k, fold_left profile_next ops d k = fold_left profile_next ops d' k.
Proof.
  induction ops as [|op ops IH]; intros d d' H k; [apply H|]. cbn [fold_left]. apply IH. intros j. unfold profile_next. destruct op; rewrite ?H; reflexivity.
Qed.
Lemma prof_run (PS : PySet) ops : forall x x' bs, prof_like x -> l_run ops x = (x', bs) -> prof_like x' /\ lo_obj x' = fold_left plain_step ops (lo_obj x) /\
  (codes_set ops bs -> (forall k, desc x' k = fold_left profile_next ops (desc x) k) /\ o_name (lo_obj x') = fold_left profile_name_next ops (o_name (lo_obj x))).
Proof.
  induction ops as [|op ops IH]; intros x x' bs H E; cbn [l_run] in E.
  - assert (x' = x) by congruence. subst x'. split; [exact H|]. split; [reflexivity|]. split; reflexivity.
  - destruct (l_step op x) as [x1 b] eqn:E1. destruct (l_run ops x1) as [x2 bs2] eqn:E2. assert (x2 = x' /\ bs = b :: bs2) as (-> & ->) by (split; congruence).
    destruct (prof_ok PS op x x1 b H E1) as (H1 & P1 & D1). destruct (IH x1 x' bs2 H1 E2) as (H2 & P2 & D2). split; [exact H2|]. cbn [fold_left]. rewrite <- P1. split; [exact P2|].
    intros C. unfold codes_set in C. inversion C as [|? ? ? ? C1 C2]; subst. destruct (D1 C1) as (A1 & N1). destruct (D2 C2) as (A2 & N2). rewrite <- N1. split; [|exact N2].
    intros k. rewrite A2. apply profile_next_ext. exact A1.
Qed.
Lemma new_prof_like (PS : PySet) a code x0 : set_code 0 a = (code, true) -> l_new_profile a = (x0, Ok tt) -> prof_like x0 /\ forall k, desc x0 k = described (group_of code) (class_of code) k.
Proof.
  intros H L. destruct (L_C118_profile PS a code H) as (y & Y & _ & _ & Sy). assert (y = x0) by congruence. subst y. revert L. unfold l_new_profile. set (o0 := mkobj CODE_UNKNOWN "" [] HSuper 0 [] CProfile).
    rewrite (l_db_ok (PInt SUPER_CODE) SUPER_CODE eq_refl). change (group_of SUPER_CODE) with 0. change (class_of SUPER_CODE) with 0.
    destruct (l_copy_std (option_map l_build (full_of 0 0)) (mklobj o0 [])) as [x1 [[]|e1]] eqn:E1; destruct (copy_class PS 0 0 _ x1 _ (blank_wfl o0 eq_refl) E1) as (C1 & W1 & D1); cbn [lo_obj] in C1; [|discriminate].
    apply copy_frame_std in C1 as (A & B). cbn in A, B. destruct (l_profile_set_code a x1) as [x2 [b|e]] eqn:E2; [|discriminate]. intros [= ->].
    destruct (prof_set_code PS a x1 x0 _ (conj W1 (conj A B)) E2) as (P' & _ & D). split; [exact P'|]. intros k. destruct (D b eq_refl) as (Dk & _). rewrite Dk. cbn [profile_next]. rewrite H, (D1 eq_refl), described_class.
    unfold class_desc. destruct (find _ (rev (name_rows (group_of code) (class_of code)))); [reflexivity|]. cbn [option_map]. destruct (find _ _); reflexivity.
Qed.
Lemma L_C118_profile_history : forall (PS : PySet) a code x0 ops x bs, set_code 0 a = (code, true) -> l_new_profile a = (x0, Ok tt) -> l_run ops x0 = (x, bs) ->
  lo_obj x = fold_left plain_step ops (lo_obj x0) /\
  (codes_set ops bs -> o_name (lo_obj x) = fold_left profile_name_next ops (class_name (group_of code) (class_of code)) /\
   forall k, says x k (fold_left profile_next ops (described (group_of code) (class_of code)) k)).
Proof.
  intros PS a code x0 ops x bs H L R. pose proof (new_prof_like PS a code x0 H L) as P.
  destruct P as (P & D0). destruct (prof_run PS ops x0 x bs P R) as ((W & _) & S0 & D). split; [exact S0|]. intros C. destruct (D C) as (Dk & N).
  destruct (L_C118_profile PS a code H) as (y & Y & _ & Ny & _). assert (y = x0) by congruence. subst y. rewrite Ny in N. split; [exact N|].
  intros k. eapply says_ext; [|apply desc_says, W]. rewrite Dk. apply profile_next_ext, D0.
Qed.

(** The results of the calls are those of the model of the other files too. *)
Lemma L_C118_results : forall (PS : PySet) a x0 ops x bs,
  x0 = mklobj (new_object a) [] \/ (exists code, set_code 0 a = (code, true) /\ (l_new_standard a = (x0, Ok tt) \/ l_new_profile a = (x0, Ok tt))) ->
  l_run ops x0 = (x, bs) ->
  (forall p l x' r, l_add p l x = (x', r) -> obj_add_property (Some p) (lo_obj x) = (lo_obj x', r)) /\
  (forall c x' r, l_set_code c x = (x', r) -> obj_set_code c (lo_obj x) = (lo_obj x', r)).
Proof.
  intros PS a x0 ops x bs [->|(code & H & [L|L])] R.
  - assert (P : plain_like (mklobj (new_object a) [])) by (split; [apply blank_wfl; reflexivity|split; reflexivity]).
    destruct (plain_run PS ops _ x bs P R) as ((W & _ & Hc) & _). unfold l_add, l_set_code, obj_add_property, obj_set_code. rewrite Hc. split.
    + intros p l x' r E. assert (x' = l_add_base p l x /\ r = Ok true) as (-> & ->) by (split; congruence). reflexivity.
    + intros c x' r. destruct (set_code (o_code (lo_obj x)) c) as [c' ok]. intros E. assert (x' = with_obj (set_o_code c' (lo_obj x)) x /\ r = Ok ok) as (-> & ->) by (split; congruence). reflexivity.
  - destruct (new_std_like PS a code x0 H L) as (S0 & _). destruct (run_ok PS ops x0 x bs S0 R) as ((W & _ & Hc) & _). unfold l_add, l_set_code, obj_add_property, obj_set_code. rewrite Hc. split.
    + intros p l x' r E. apply (wfl_add_super PS _ _ _ _ _ W E).
    + intros c x' r E. apply (wfl_set_code PS _ _ _ _ W E).
  - destruct (new_prof_like PS a code x0 H L) as (S0 & _). destruct (prof_run PS ops x0 x bs S0 R) as (P & _). pose proof P as (W & _ & Hc). unfold l_add, l_set_code, obj_add_property, obj_set_code. rewrite Hc. split.
    + intros p l x' r E. apply (wfl_add_super PS _ _ _ _ _ W E).
    + intros c x' r E. apply (prof_set_code PS _ _ _ _ P E).
Qed.
