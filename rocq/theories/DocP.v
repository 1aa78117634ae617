(** Lemmas for C102. *)
From Verif Require Import PyBase BytesM EsvM MsgM PropM ObjM DbData DbM NodeM LocalM DictP SpecObj SpecReq SpecDb SpecNode SpecProf ObjP MapP ReqP DbP NodeP ProfP MonoM SpecMono MonoP DocM SpecDoc.

Section Doc.
Variable o0 : obj.
Variable K : has_property 0x80 o0 = true.
Let dev := doc_device doc_handler o0.
Let known (c : Z) : bool := has_property c o0.

Lemma dev_get d o c : dev d o -> get_property c o = if c =? 0x80 then option_map (set_op_data d) (get_property c o0) else get_property c o0.
Proof. intros (_ & _ & _ & H). exact (H c). Qed.
Lemma dev_known d o c : dev d o -> isSome (get_property c o) = known c.
Proof. intros D. rewrite (dev_get d o c D). unfold known, has_property. destruct (c =? 0x80); destruct (get_property c o0); reflexivity. Qed.
Lemma dev_code d o c p : dev d o -> get_property c o = Some p -> op_code p = c.
Proof.
  intros D G. pose proof D as (_ & _ & W & _). rewrite (dev_get d o c D) in G. destruct (c =? 0x80); [|exact (W c p G)].
  destruct (get_property c o0) as [q|] eqn:E; [|discriminate G]. cbn in G. assert (p = set_op_data d q) by congruence. subst p. exact (W c q E).
Qed.
Lemma dev_data d o p : dev d o -> get_property 0x80 o = Some p -> op_data p = d.
Proof.
  intros D G. rewrite (dev_get d o 0x80 D) in G. cbn [Z.eqb Pos.eqb] in G. destruct (get_property 0x80 o0) as [q|]; [|discriminate G]. cbn in G.
  assert (p = set_op_data d q) by congruence. subst p. reflexivity.
Qed.
Lemma dev_call d o : dev d o -> dev d (after_call (o_props o) o).
Proof. intros (A & B & C & D). split; [exact A|]. split; [exact B|]. split; [exact C|]. exact D. Qed.
Lemma dev_store d o w : dev d o -> dev w (store 0x80 w o).
Proof.
  intros D. pose proof D as (A & B & C & _). split; [rewrite store_handler; exact A|]. split; [rewrite store_frame; exact B|]. split; [exact C|]. intros c.
  unfold store. rewrite set_property_data_get. rewrite (dev_get d o c D). destruct (Z.eqb_spec 0x80 c) as [E|N].
  - subst c. cbn [Z.eqb Pos.eqb]. destruct (get_property 128 o0) as [q|]; [|reflexivity]. destruct q. reflexivity.
  - destruct (Z.eqb_spec c 0x80); [congruence|]. reflexivity.
Qed.

Lemma dev_write d o mp : dev d o -> exists o',
  (if known (p_code mp) then
     match doc_verdict d (p_code mp) (p_data mp) with
     | fail => do_write o mp = (o', Err IndexError) /\ dev d o'
     | accept => do_write o mp = (o', Ok (mkprop (p_code mp) [], true)) /\ dev (p_data mp) o'
     | refuse => do_write o mp = (o', Ok (mp, false)) /\ dev d o'
     end
   else do_write o mp = (o', Ok (mkprop (p_code mp) [], false)) /\ dev d o').
Proof.
  intros D. unfold do_write. rewrite <- (dev_known d o (p_code mp) D). destruct (get_property (p_code mp) o) as [p|] eqn:G; cbn [isSome].
  2:{ exists o. split; [reflexivity|exact D]. }
  pose proof (dev_code d o _ _ D G) as Cp. pose proof (dev_call d o D) as D1. pose proof D as (H & _).
  assert (Wr : write_requested o p (p_data mp) = (after_call (o_props o) o, snd (doc_write 0 (o_props o) p (p_data mp)))).
  { unfold write_requested. rewrite H. unfold doc_handler. cbn [h_write]. unfold doc_write.
    destruct (negb (op_code p =? 128)); [reflexivity|]. destruct (negb (zlen (op_data p) =? 1)); [reflexivity|]. destruct (p_data mp) as [|x w]; [reflexivity|].
    destruct (negb (x =? 48) && negb (x =? 49)); reflexivity. }
  rewrite Wr. unfold doc_write. clear Wr.
  assert (Hmp : mkprop (p_code mp) (p_data mp) = mp) by (destruct mp; reflexivity).
  unfold doc_verdict. rewrite Cp. destruct (Z.eqb_spec (p_code mp) 0x80) as [E|N]; cbn [negb].
  2:{ eexists. rewrite Hmp. split; [reflexivity|exact D1]. }
  rewrite E in G. pose proof (dev_data d o p D G) as Dd. rewrite Dd.
  destruct d as [|x [|y d]].
  - eexists. rewrite Hmp. split; [reflexivity|exact D1].
  - cbn [zlen length Z.of_nat]. change (negb (zlen [x] =? 1)) with false. cbn iota. destruct (p_data mp) as [|z w] eqn:Ew.
    + eexists. split; [reflexivity|exact D1].
    + unfold on_offb. replace (negb (z =? 48) && negb (z =? 49)) with (negb ((z =? 48) || (z =? 49))) by (destruct (z =? 48), (z =? 49); reflexivity).
      destruct ((z =? 48) || (z =? 49)); cbn [negb].
      * eexists. rewrite E. split; [reflexivity|]. exact (dev_store _ _ _ D1).
      * eexists. rewrite Hmp. split; [reflexivity|exact D1].
  - replace (zlen (x :: y :: d) =? 1) with false by (unfold zlen; cbn [length]; lia). cbn [negb]. eexists. rewrite Hmp. split; [reflexivity|exact D1].
Qed.
Lemma dev_writes l : forall d o, dev d o -> exists o', do_loop do_write o l = (o', snd (doc_writes known d l)) /\ dev (fst (doc_writes known d l)) o'.
Proof.
  induction l as [|mp l IH]; intros d o D; cbn [do_loop doc_writes].
  - exists o. split; [reflexivity|exact D].
  - destruct (dev_write d o mp D) as (o1 & H). destruct (known (p_code mp)).
    + destruct (doc_verdict d (p_code mp) (p_data mp)); destruct H as (H & D1); rewrite H.
      * destruct (IH _ _ D1) as (o2 & E & D2). rewrite E. destruct (doc_writes known (p_data mp) l) as [d2 [[ps k]|e]]; exists o2; split; try reflexivity; exact D2.
      * destruct (IH _ _ D1) as (o2 & E & D2). rewrite E. destruct (doc_writes known d l) as [d2 [[ps k]|e]]; exists o2; split; try reflexivity; exact D2.
      * exists o1. split; [reflexivity|exact D1].
    + destruct H as (H & D1); rewrite H. destruct (IH _ _ D1) as (o2 & E & D2). rewrite E. destruct (doc_writes known d l) as [d2 [[ps k]|e]]; exists o2; split; try reflexivity; exact D2.
Qed.
Lemma dev_asked d o p : dev d o -> read_requested o (Some p) = (after_call (o_props o) o, Ok (op_code p =? 0x80)).
Proof. intros (H & _). unfold read_requested. rewrite H. unfold doc_handler. cbn [h_read doc_read]. destruct (op_code p =? 0x80); reflexivity. Qed.
Lemma dev_read d o mp : dev d o -> exists o', do_read o mp = (o', Ok (mkprop (p_code mp) (if p_code mp =? 0x80 then d else []), p_code mp =? 0x80)) /\ dev d o'.
Proof.
  intros D. unfold do_read. pose proof (dev_known d o (p_code mp) D) as Kn. destruct (get_property (p_code mp) o) as [p|] eqn:G; cbn [isSome] in Kn.
  - rewrite (dev_asked d o p D), (dev_code d o _ _ D G). pose proof (dev_call d o D) as D1. destruct (Z.eqb_spec (p_code mp) 0x80) as [E|N].
    + eexists. split; [|exact D1]. do 4 f_equal. unfold current. rewrite E in *. destruct (get_property 0x80 (after_call (o_props o) o)) as [q|] eqn:Q.
      * exact (dev_data d _ q D1 Q).
      * exact (dev_data d o p D G).
    + eexists. split; [reflexivity|exact D1].
  - exists o. split; [|exact D]. destruct (Z.eqb_spec (p_code mp) 0x80) as [E|N]; [|reflexivity]. exfalso. rewrite E in Kn. unfold known in Kn. rewrite K in Kn. discriminate Kn.
Qed.
Lemma dev_read_wr d o mp : dev d o -> exists o', do_read_wr o mp =
   (o', if known (p_code mp) then Ok (mkprop (p_code mp) (if p_code mp =? 0x80 then d else []), p_code mp =? 0x80) else Err AttributeError) /\ dev d o'.
Proof.
  intros D. unfold do_read_wr. rewrite <- (dev_known d o (p_code mp) D). destruct (get_property (p_code mp) o) as [p|] eqn:G; cbn [isSome].
  - rewrite (dev_asked d o p D), (dev_code d o _ _ D G). pose proof (dev_call d o D) as D1. destruct (Z.eqb_spec (p_code mp) 0x80) as [E|N].
    + eexists. split; [|exact D1]. do 4 f_equal. unfold current. rewrite E in *. destruct (get_property 0x80 (after_call (o_props o) o)) as [q|] eqn:Q.
      * exact (dev_data d _ q D1 Q).
      * exact (dev_data d o p D G).
    + eexists. split; [reflexivity|exact D1].
  - pose proof D as (H & _). unfold read_requested. rewrite H. unfold doc_handler. cbn [h_read doc_read]. eexists. split; [reflexivity|exact (dev_call d o D)].
Qed.
Lemma dev_reads l : forall d o, dev d o -> exists o', do_loop do_read o l = (o', Ok (doc_reads d l)) /\ dev d o'.
Proof.
  induction l as [|mp l IH]; intros d o D; cbn [do_loop].
  - exists o. split; [reflexivity|exact D].
  - destruct (dev_read d o mp D) as (o1 & H & D1). rewrite H. destruct (IH d o1 D1) as (o2 & H2 & D2). rewrite H2. exists o2. split; [|exact D2].
    unfold doc_reads. cbn [map filter]. destruct (p_code mp =? 0x80); do 3 f_equal. cbn [length]. lia.
Qed.
Lemma dev_reads_wr l : forall d o, dev d o -> exists o', do_loop do_read_wr o l =
  (o', if existsb (fun mp => negb (known (p_code mp))) l then Err AttributeError else Ok (doc_reads d l)) /\ dev d o'.
Proof.
  induction l as [|mp l IH]; intros d o D; cbn [do_loop existsb].
  - exists o. split; [reflexivity|exact D].
  - destruct (dev_read_wr d o mp D) as (o1 & H & D1). rewrite H. destruct (known (p_code mp)); cbn [negb orb]; [|exists o1; split; [reflexivity|exact D1]].
    destruct (IH d o1 D1) as (o2 & H2 & D2). rewrite H2. exists o2. split; [|exact D2]. destruct (existsb _ l); [reflexivity|].
    unfold doc_reads. cbn [map filter]. destruct (p_code mp =? 0x80); do 3 f_equal. cbn [length]. lia.
Qed.
End Doc.

(** ** C102 *)
Lemma zl {A} (l : list A) : zlen l = Z.of_nat (length l).
Proof. reflexivity. Qed.
Lemma dev_step o0 d o m : has_property 0x80 o0 = true -> doc_device doc_handler o0 d o ->
  let r := obj_message_received o m in let s := doc_answer (fun c => has_property c o0) d m in
  snd (fst r) = o_obs o /\ snd r = snd s /\ doc_device doc_handler o0 (fst s) (fst (fst r)).
Proof.
  intros K D. pose proof D as (Hd & _). unfold obj_message_received, doc_answer. rewrite Hd. unfold doc_handler at 2.
  assert (N : OPC m + OPCSet m + OPCGet m = Z.of_nat (length (m_props m) + length (m_sets m) + length (m_gets m))) by (unfold OPC, OPCSet, OPCGet; rewrite !zl; lia).
  rewrite N. remember (Z.of_nat (length (m_props m) + length (m_sets m) + length (m_gets m))) as n eqn:Hn. clear N.
  destruct (Z.eqb_spec (m_ESV m) 0x60) as [E|E1]; [|destruct (Z.eqb_spec (m_ESV m) 0x61) as [E|E2]]; cbn [orb].
  1,2: rewrite E; cbn [is_request is_write_read_request do_plain is_read_request is_write_request negb Z.eqb Pos.eqb orb andb WRITE_REQUEST];
    change (is_request 96) with true; change (is_request 97) with true; change (is_write_read_request 96) with false; change (is_write_read_request 97) with false;
    change (do_plain 96) with do_write; change (do_plain 97) with do_write; cbn [negb];
    destruct (dev_writes o0 K (m_props m) d o D) as (o1 & H1 & D1); rewrite H1;
    destruct (doc_writes _ d (m_props m)) as [d1 [[ps k]|e]]; cbn [fst snd] in *; [|split; [reflexivity|split; [reflexivity|exact D1]]];
    destruct (k =? n); (split; [reflexivity|split; [reflexivity|exact D1]]).
  destruct (Z.eqb_spec (m_ESV m) 0x62) as [E|E3].
  { rewrite E. change (is_request 98) with true; change (is_write_read_request 98) with false; change (do_plain 98) with do_read; cbn [negb].
    destruct (dev_reads o0 K (m_props m) d o D) as (o1 & H1 & D1); rewrite H1. unfold doc_reads. cbn [fst snd].
    match goal with |- context [?a =? n] => destruct (a =? n) end; (split; [reflexivity|split; [reflexivity|exact D1]]). }
  destruct (Z.eqb_spec (m_ESV m) 0x6E) as [E|E4].
  { rewrite E. change (is_request 110) with true; change (is_write_read_request 110) with true; cbn [negb].
    destruct (dev_writes o0 K (m_sets m) d o D) as (o1 & H1 & D1); rewrite H1.
    destruct (doc_writes _ d (m_sets m)) as [d1 [[ss k]|e]]; cbn [fst snd] in *; [|split; [reflexivity|split; [reflexivity|exact D1]]].
    destruct (dev_reads_wr o0 K (m_gets m) d1 o1 D1) as (o2 & H2 & D2); rewrite H2.
    destruct (existsb _ (m_gets m)); cbn [fst snd]; [split; [reflexivity|split; [reflexivity|exact D2]]|]. unfold doc_reads. cbn [fst snd].
    match goal with |- context [?a =? n] => destruct (a =? n) end; (split; [reflexivity|split; [reflexivity|exact D2]]). }
  destruct (Z.eqb_spec (m_ESV m) 0x63) as [E|E5].
  { rewrite E. change (is_request 99) with true; change (is_write_read_request 99) with false; change (do_plain 99) with do_skip; cbn [negb]. rewrite loop_skip.
    cbn [fst snd]. destruct (0 =? n); (split; [reflexivity|split; [reflexivity|exact D]]). }
  destruct (Z.eqb_spec (m_ESV m) 0x74) as [E|E6].
  { rewrite E. change (is_request 116) with true; change (is_write_read_request 116) with false; change (do_plain 116) with do_skip; cbn [negb]. rewrite loop_skip.
    cbn [fst snd]. destruct (Z.eqb_spec 0 n) as [En|En]; (split; [reflexivity|split; [|exact D]]); [|reflexivity].
    assert (P : m_props m = []) by (destruct (m_props m); [reflexivity|cbn [length] in Hn; lia]). rewrite P. reflexivity. }
  assert (R : is_request (m_ESV m) = false).
  { unfold is_request, WRITE_REQUEST, WRITE_REQUEST_RESPONSE_REQUIRED, READ_REQUEST, NOTIFICATION_REQUEST, WRITE_READ_REQUEST, NOTIFICATION_RESPONSE_REQUIRED.
    repeat match goal with |- context [m_ESV m =? ?v] => replace (m_ESV m =? v) with false by lia end. reflexivity. }
  rewrite R. cbn [negb fst snd]. split; [reflexivity|split; [reflexivity|exact D]].
Qed.
Lemma L_C102_exact : forall o0 ms d o, has_property 0x80 o0 = true -> doc_device doc_handler o0 d o ->
  let s := doc_run (fun c => has_property c o0) d ms in
  obj_outs o ms = snd s /\ doc_device doc_handler o0 (fst s) (obj_run o ms).
Proof.
  intros o0 ms. induction ms as [|m ms IH]; intros d o K D s; [split; [reflexivity|exact D]|].
  destruct (dev_step o0 d o m K D) as (_ & A & D1). unfold s. cbn [doc_run obj_outs]. unfold obj_run. cbn [fold_left]. fold (obj_run (obj_step o m) ms).
  destruct (doc_answer _ d m) as [d1 a]. cbn [fst snd] in A, D1. destruct (IH d1 _ K D1) as (B & D2). unfold obj_step in *.
  destruct (doc_run _ d1 ms) as [d2 l]. cbn [fst snd] in *. split; [congruence|exact D2].
Qed.
Lemma status_has o d : status o = Some d -> has_property 0x80 o = true.
Proof. unfold status, has_property. destruct (get_property 0x80 o); [reflexivity|discriminate]. Qed.
Lemma light_dev o d : a_light doc_handler o -> status o = Some d -> doc_device doc_handler o d o.
Proof.
  intros (H & W) S. split; [exact H|]. split; [reflexivity|]. split; [exact W|]. intros c. destruct (Z.eqb_spec c 0x80) as [->|]; [|reflexivity].
  unfold status in S. destruct (get_property 0x80 o) as [q|]; [|discriminate S]. cbn in *. assert (op_data q = d) by congruence. subst d. destruct q. reflexivity.
Qed.
Lemma dev_status o0 d o : has_property 0x80 o0 = true -> doc_device doc_handler o0 d o -> status o = Some d.
Proof.
  intros K (_ & _ & _ & G). unfold status. rewrite G. cbn [Z.eqb Pos.eqb]. unfold has_property in K. destruct (get_property 0x80 o0) as [q|]; [|discriminate K]. reflexivity.
Qed.
Lemma dev_light o0 d o : doc_device doc_handler o0 d o -> a_light doc_handler o.
Proof.
  intros D. pose proof D as (H & _). split; [exact H|]. intros c p G. exact (dev_code o0 d o c p D G).
Qed.
Lemma L_C102_read : forall o d m, a_light doc_handler o -> status o = Some d -> m_ESV m = 0x62 -> m_sets m = [] -> m_gets m = [] ->
  (m_props m = [mkprop 0x80 []] ->
     snd (obj_message_received o m) = Ok (Some (mkmsg (m_TID m) (m_DEOJ m) (m_SEOJ m) 0x72 [mkprop 0x80 d] [] [] None None))) /\
  (forall c, c <> 0x80 -> m_props m = [mkprop c []] ->
     snd (obj_message_received o m) = Ok (Some (mkmsg (m_TID m) (m_DEOJ m) (m_SEOJ m) 0x52 [mkprop c []] [] [] None None))).
Proof.
  intros o d m L S E Es Eg. destruct (dev_step o d o m (status_has o d S) (light_dev o d L S)) as (_ & A & _). unfold doc_answer in A. rewrite E, Es, Eg in A. cbn [Z.eqb Pos.eqb orb] in A. split.
  - intros P. rewrite P in A. exact A.
  - intros c N P. rewrite P in A. unfold doc_reads in A. cbn [map filter p_code] in A. replace (c =? 128) with false in A by lia. exact A.
Qed.
(** Writes of one byte. *)
Lemma one_writes kn l : forall x, (forall w, In w (to80 l) -> length w = 1%nat) -> kn 0x80 = true ->
  exists r, doc_writes kn [x] l = ([last (filter on_offb (concat (to80 l))) x], Ok r).
Proof.
  induction l as [|mp l IH]; intros x F K; cbn [doc_writes]; [eexists; reflexivity|].
  unfold to80 in *. cbn [filter] in *. destruct (Z.eqb_spec (p_code mp) 0x80) as [E|N].
  - cbn [map In] in F. rewrite E, K. unfold doc_verdict. cbn [Z.eqb Pos.eqb]. destruct (p_data mp) as [|y [|z w]] eqn:Ew; try (specialize (F _ (or_introl eq_refl)); discriminate F).
    assert (F' : forall w, In w (map p_data (filter (fun mp => p_code mp =? 128) l)) -> length w = 1%nat) by (intros w I; apply F; now right).
    cbn [map concat filter app]. rewrite Ew. cbn [app filter]. destruct (on_offb y) eqn:B.
    + destruct (IH y F' K) as ([ps k] & ->). eexists. f_equal. f_equal. symmetry. exact (eq_sym (last_last [y] _ x)).
    + destruct (IH x F' K) as ([ps k] & ->). eexists. reflexivity.
  - unfold doc_verdict. replace (p_code mp =? 128) with false by lia. destruct (IH x F K) as ([ps k] & ->). destruct (kn (p_code mp)); eexists; reflexivity.
Qed.
Lemma one_answer kn m x : (forall w, In w (status_writes m) -> length w = 1%nat) -> kn 0x80 = true ->
  (m_ESV m = 0x6E -> forall mp, In mp (m_gets m) -> kn (p_code mp) = true) ->
  exists a, doc_answer kn [x] m = ([last (filter on_offb (concat (status_writes m))) x], Ok a).
Proof.
  intros F K G. unfold doc_answer, status_writes, writes_of in *. destruct ((m_ESV m =? 0x60) || (m_ESV m =? 0x61)) eqn:E1.
  - destruct (one_writes kn (m_props m) x F K) as ([ps k] & ->). destruct (k =? _); [destruct (m_ESV m =? 0x60)|]; eexists; reflexivity.
  - destruct (Z.eqb_spec (m_ESV m) 0x62) as [E|E2]; [rewrite E in *; unfold doc_reads; eexists; reflexivity|].
    destruct (Z.eqb_spec (m_ESV m) 0x6E) as [E|E3].
    + destruct (one_writes kn (m_sets m) x F K) as ([ps k] & ->). replace (existsb _ (m_gets m)) with false.
      * unfold doc_reads. eexists. reflexivity.
      * symmetry. apply Bool.not_true_is_false. intros C. apply existsb_exists in C as (mp & I & C). rewrite (G E mp I) in C. discriminate C.
    + destruct (m_ESV m =? 0x63); [eexists; reflexivity|]. destruct (m_ESV m =? 0x74); [|eexists; reflexivity].
      match goal with |- context [0 =? ?a] => destruct (0 =? a) end; eexists; reflexivity.
Qed.

Lemma one_run kn ms : forall x, (forall m w, In m ms -> In w (status_writes m) -> length w = 1%nat) -> kn 0x80 = true ->
  (forall m mp, In m ms -> m_ESV m = 0x6E -> In mp (m_gets m) -> kn (p_code mp) = true) ->
  fst (doc_run kn [x] ms) = [last (filter on_offb (concat (concat (map status_writes ms)))) x] /\
  Forall (fun a => exists b, a = Ok b) (snd (doc_run kn [x] ms)).
Proof.
  induction ms as [|m ms IH]; intros x F K G; [split; [reflexivity|constructor]|]. cbn [doc_run].
  destruct (one_answer kn m x) as (a & ->); [intros w; apply F; now left|exact K|intros E mp; apply G; [now left|exact E]|].
  set (y := last _ x). destruct (IH y) as (A & B); [intros m' w I; apply F; now right|exact K|intros m' mp I; apply G; now right|].
  destruct (doc_run kn [y] ms) as [d l]. cbn [fst snd] in *. split; [|constructor; [eexists; reflexivity|exact B]].
  rewrite A. cbn [map concat]. rewrite concat_app, filter_app. f_equal. unfold y. apply last_last.
Qed.
Lemma last_on_off l x : on_off x -> on_off (last (filter on_offb l) x).
Proof.
  intros X. assert (G : Forall on_off (filter on_offb l)) by (apply Forall_forall; intros y I; apply filter_In in I as (_ & I); now apply on_offb_spec).
  induction G as [|a l' A G IH]; [exact X|]. destruct l' as [|b l']; [exact A|exact IH].
Qed.
Lemma L_C102_register_partial : forall o ms x, a_light doc_handler o -> status o = Some [x] -> on_off x ->
  (forall m w, In m ms -> In w (status_writes m) -> length w = 1%nat) ->
  (forall m mp, In m ms -> m_ESV m = 0x6E -> In mp (m_gets m) -> has_property (p_code mp) o = true) ->
  Forall (fun a => exists b, a = Ok b) (obj_outs o ms) /\
  exists y, status (obj_run o ms) = Some [y] /\ on_off y /\ y = last (filter on_offb (concat (concat (map status_writes ms)))) x.
Proof.
  intros o ms x L S X F G. pose proof (status_has o _ S) as K. destruct (L_C102_exact o ms [x] o K (light_dev o _ L S)) as (A & D).
  destruct (one_run (fun c => has_property c o) ms x F K G) as (B & C). rewrite A. split; [exact C|]. rewrite B in D. eexists. split; [exact (dev_status _ _ _ K D)|].
  split; [apply last_on_off; exact X|reflexivity].
Qed.
(** With another number of bytes the content never changes. *)
Lemma stuck_writes kn d l : length d <> 1%nat -> exists r, doc_writes kn d l = (d, Ok r).
Proof.
  intros N. induction l as [|mp l (r & IH)]; cbn [doc_writes]; [eexists; reflexivity|]. assert (V : doc_verdict d (p_code mp) (p_data mp) = refuse).
  { unfold doc_verdict. destruct (p_code mp =? 0x80); [|reflexivity]. destruct d as [|a [|b d]]; [reflexivity|exfalso; apply N; reflexivity|reflexivity]. }
  rewrite V, IH. destruct r. destruct (kn (p_code mp)); eexists; reflexivity.
Qed.
Lemma stuck_answer kn d m : length d <> 1%nat -> fst (doc_answer kn d m) = d.
Proof.
  intros N. unfold doc_answer. destruct ((m_ESV m =? 0x60) || (m_ESV m =? 0x61)).
  - destruct (stuck_writes kn d (m_props m) N) as ([ps k] & ->). reflexivity.
  - destruct (m_ESV m =? 0x62); [reflexivity|]. destruct (m_ESV m =? 0x6E); [|destruct (m_ESV m =? 0x63); [reflexivity|destruct (m_ESV m =? 0x74); reflexivity]].
    destruct (stuck_writes kn d (m_sets m) N) as ([ps k] & ->). destruct (existsb _ (m_gets m)); reflexivity.
Qed.
Lemma stuck_run kn ms d : length d <> 1%nat -> fst (doc_run kn d ms) = d.
Proof.
  intros N. induction ms as [|m ms IH]; [reflexivity|]. cbn [doc_run]. pose proof (stuck_answer kn d m N) as A. destruct (doc_answer kn d m) as [d1 a]. cbn [fst] in A. subst d1.
  destruct (doc_run kn d ms). exact IH.
Qed.
Lemma L_C102_stuck : forall o d ms m w, a_light doc_handler o -> status o = Some d -> length d <> 1%nat ->
  let o' := obj_run o ms in
  status o' = Some d /\
  (m_ESV m = 0x60 \/ m_ESV m = 0x61 -> m_props m = [mkprop 0x80 w] ->
     snd (obj_message_received o' m) = Ok (Some (mkmsg (m_TID m) (m_DEOJ m) (m_SEOJ m) 0x50 [mkprop 0x80 w] [] [] None None))).
Proof.
  intros o d ms m w L S N o'. pose proof (status_has o _ S) as K. destruct (L_C102_exact o ms d o K (light_dev o _ L S)) as (_ & D). fold o' in D.
  rewrite stuck_run in D by exact N. split; [exact (dev_status _ _ _ K D)|]. intros E P. destruct (dev_step o d o' m K D) as (_ & A & _). rewrite A.
  unfold doc_answer. replace ((m_ESV m =? 0x60) || (m_ESV m =? 0x61)) with true by lia. rewrite P. cbn [doc_writes p_code p_data]. rewrite K. unfold doc_verdict. cbn [Z.eqb Pos.eqb].
  replace (match d, w with [_], [] => fail | [_], y :: _ => if on_offb y then accept else refuse | _, _ => refuse end) with refuse
    by (destruct d as [|a [|b d]]; [reflexivity|exfalso; apply N; reflexivity|reflexivity]).
  cbn [snd length]. replace (0 + 0 =? _) with false; [reflexivity|]. symmetry. apply Z.eqb_neq. lia.
Qed.
Lemma new_doc_ok : forall (PS : PySet) r, exists s o, new_doc_node r = (s, Ok true) /\ zget 0x029101 (ln_objs s) = Some o /\
  a_light doc_handler o /\ status o = Some [].
Proof.
  intros PS r. unfold new_doc_node, new_local_node. destruct (new_local_ok false r) as (s0 & -> & L & K & _).
  unfold new_doc. destruct (L_C56_standard_properties PS (PInt 0x029101) 0x029101 eq_refl) as (o & Eo & C & _ & G). rewrite Eo.
  set (o1 := set_request_handler doc_handler o). assert (C1 : o_code o1 = 0x029101) by exact C.
  assert (Gs : forall c, get_property c o1 = get_property c o) by reflexivity.
  destruct L as (I & W & N & p & Gp & P & S). unfold local_add_object. rewrite C1. change (0x029101 =? NODE_PROFILE_CODE) with false. cbn iota.
  cbn [node_add_object fst]. rewrite C1. set (s1 := set_ln_node _ s0).
  assert (E : ln_objs s1 = zset 0x029101 o1 (ln_objs s0)) by reflexivity.
  destruct (update_profile_ok s1 p) as (p' & -> & _ & _).
  - exact I.
  - intros k x H. rewrite E in H. apply (in_dset Z.eqb) in H.
    destruct H as [H|[H|(a & Ha & H)]]; [congruence|now apply W|]. injection H as -> ->. lia.
  - rewrite E. now apply znodup_zset.
  - rewrite E, zget_zset_other by (unfold NP; discriminate). exact Gp.
  - exact P.
  - eexists _, o1. split; [reflexivity|]. split.
    { cbn [put_obj ln_objs ln_node set_ln_node n_objs]. rewrite zget_zset_other by (unfold NP; discriminate). fold (ln_objs s1). rewrite E. apply zget_zset_same. }
    split.
    { split; [reflexivity|]. intros c q Gq. rewrite Gs in Gq. specialize (G c). destruct (row_for c _) as [rw|] eqn:Rw; [|congruence]. destruct G as (q' & Gq' & Mr). assert (q' = q) by congruence. subst q'.
      destruct Mr as (-> & _). unfold row_for in Rw. apply find_some in Rw as (_ & Rw). now apply Z.eqb_eq in Rw. }
    unfold status. rewrite Gs. specialize (G 0x80). change (row_for 0x80 (object_rows (group_of 0x029101) (class_of 0x029101))) with (Some (0x80, (r_r, r_r, r_r))) in G.
    destruct G as (q & Gq & _). rewrite Gq. cbn [option_map]. f_equal.
    refine (L_C56_no_data PS (PInt 0x029101) 0x029101 o eq_refl Eo 0x80 q Gq _). intros [H|[H|[H|[]]]]; discriminate.
Qed.
Lemma L_C102_new_refuted : forall (PS : PySet) r, exists s o, new_doc_node r = (s, Ok true) /\ zget 0x029101 (ln_objs s) = Some o /\
  forall ms m w, let o' := obj_run o ms in
  status o' = Some [] /\
  (m_ESV m = 0x60 \/ m_ESV m = 0x61 -> m_props m = [mkprop 0x80 w] ->
     snd (obj_message_received o' m) = Ok (Some (mkmsg (m_TID m) (m_DEOJ m) (m_SEOJ m) 0x50 [mkprop 0x80 w] [] [] None None))).
Proof.
  intros PS r. destruct (new_doc_ok PS r) as (s & o & E & G & L & S). exists s, o. split; [exact E|]. split; [exact G|]. intros ms m w. apply (L_C102_stuck o [] ms m w L S). discriminate.
Qed.
Lemma L_C102_long_refuted : forall o x y m, a_light doc_handler o -> status o = Some [x] -> m_ESV m = 0x60 \/ m_ESV m = 0x61 ->
  m_props m = [mkprop 0x80 [0x30; y]] ->
  status (obj_step o m) = Some [0x30; y] /\
  forall ms, status (obj_run (obj_step o m) ms) = Some [0x30; y].
Proof.
  intros o x y m L S E P. pose proof (status_has o _ S) as K. destruct (dev_step o [x] o m K (light_dev o _ L S)) as (_ & _ & D).
  assert (F : fst (doc_answer (fun c => has_property c o) [x] m) = [0x30; y]).
  { unfold doc_answer. replace ((m_ESV m =? 0x60) || (m_ESV m =? 0x61)) with true by lia. rewrite P. cbn [doc_writes p_code p_data]. rewrite K. reflexivity. }
  rewrite F in D. change (fst (fst (obj_message_received o m))) with (obj_step o m) in D. pose proof (dev_status _ _ _ K D) as S1. split; [exact S1|].
  intros ms. refine (proj1 (L_C102_stuck _ _ ms m [] (dev_light _ _ _ D) S1 _)). discriminate.
Qed.
Lemma L_C102_empty_refuted : forall o x m, a_light doc_handler o -> status o = Some [x] -> m_ESV m = 0x60 \/ m_ESV m = 0x61 ->
  m_props m = [mkprop 0x80 []] -> snd (obj_message_received o m) = Err IndexError.
Proof.
  intros o x m L S E P. pose proof (status_has o _ S) as K. destruct (dev_step o [x] o m K (light_dev o _ L S)) as (_ & A & _). rewrite A.
  unfold doc_answer. replace ((m_ESV m =? 0x60) || (m_ESV m =? 0x61)) with true by lia. rewrite P. cbn [doc_writes p_code p_data]. rewrite K. reflexivity.
Qed.
Lemma L_C102_unknown_refuted : forall o d m c, a_light doc_handler o -> status o = Some d -> m_ESV m = 0x6E -> m_sets m = [] ->
  m_gets m = [mkprop c []] -> has_property c o = false -> snd (obj_message_received o m) = Err AttributeError.
Proof.
  intros o d m c L S E P G N. pose proof (status_has o _ S) as K. destruct (dev_step o d o m K (light_dev o _ L S)) as (_ & A & _). rewrite A.
  unfold doc_answer. rewrite E, P, G. cbn [Z.eqb Pos.eqb orb doc_writes existsb p_code]. rewrite N. reflexivity.
Qed.
