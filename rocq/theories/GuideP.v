(** Lemmas for C122. *)
From Verif Require Import PyBase BytesM EsvM MsgM PropM ObjM DbData DbM NodeM LocalM CtrlM BenchM LogM OutM GuideM
  SpecHex SpecWire SpecObj SpecDb SpecReq SpecNode SpecProf SpecLocal SpecSrv SpecCtrl SpecEnd SpecSess SpecBench SpecLog SpecOut SpecGuide
  DictP BytesP WireP CodecP ObjP MapP ReqP NodeP LogP OutP.
From Verif Require CtrlP SessP EndP AnswerP.
Require Import ZifyBool.

(** ** The list *)
Lemma object_rows os : Forall (fun o => 0 <= o_code o) os -> forall i,
  Forall2 object_row (combine (seq i (length (map o_code os))) (map o_code os)) (map guide_object (enumerate i os)).
Proof.
  induction 1 as [|o os H _ IH]; intros i; cbn; constructor; [|apply IH]. eexists. split; [apply pct_X_number; [exact H|lia]|reflexivity].
Qed.
Lemma guide_blocks ns : Forall (fun n => Forall (fun o => 0 <= o_code o) (node_objects n)) ns -> forall i,
  Forall2 node_rows (combine (seq i (length (map (fun n => (node_ip n, map o_code (node_objects n))) ns))) (map (fun n => (node_ip n, map o_code (node_objects n))) ns)) (map guide_node (enumerate i ns)).
Proof.
  induction 1 as [|n ns H _ IH]; intros i; cbn [map length seq combine enumerate]; constructor; [|apply IH].
  eexists. split; [reflexivity|]. exact (object_rows _ H 0%nat).
Qed.
Lemma L_C122_list : forall c, Forall (fun n => Forall (fun o => 0 <= o_code o) (node_objects n)) (ctl_nodes c) ->
  listing (map (fun n => (node_ip n, map o_code (node_objects n))) (ctl_nodes c)) (guide_list c).
Proof.
  intros c H. exists (map guide_node (enumerate 0 (ctl_nodes c))). split; [exact (guide_blocks _ H 0%nat)|]. unfold guide_list. now rewrite flat_map_concat_map.
Qed.
Lemma L_C122_found : forall (PS : PySet) w tr s c ms s' tr' rs, quiet w -> ln_ctl s = Some c -> c_found c = [] ->
  Forall (fun m => exists a, received_from a m) ms -> received_all w tr s ms = (s', tr', rs) ->
  exists c' ns, ln_ctl s' = Some c' /\ map fst ns = firsts String.eqb (announcers ms) /\
  Forall (fun n => exists l, last_list (fst n) ms = Some l /\ snd n = firsts Z.eqb (0x0EF001 :: l)) ns /\ listing ns (guide_list c').
Proof.
  intros PS w tr s c ms s' tr' rs Q C F R E. destruct (CtrlP.L_C46_table PS w tr s c ms s' tr' rs Q C F R E) as (c' & C' & I & O & _).
  exists c', (map (fun n => (node_ip n, map o_code (node_objects n))) (ctl_nodes c')). split; [exact C'|]. split; [rewrite map_map; exact I|]. split.
  - apply Forall_map, Forall_forall. intros n In_. destruct (O n In_) as (codes & L & M). exists codes. split; [exact L|exact M].
  - apply L_C122_list. apply Forall_forall. intros n In_. destruct (O n In_) as (codes & L & M). apply Forall_forall. intros o Io.
    assert (K : In (o_code o) (firsts Z.eqb (0x0EF001 :: codes))) by (rewrite <- M; apply in_map, Io). apply (proj1 (firsts_in Z.eqb zeqb_eq _ _)) in K.
    destruct K as [<-|K]; [lia|]. exact (proj1 (Forall_forall _ _) (last_codes _ _ _ R L) _ K).
Qed.

(** ** Reading the list *)
Lemma bracket_ends i j s t : ("[" ++ number i ++ "] " ++ s = "[" ++ number j ++ "] " ++ t)%string -> i = j /\ s = t.
Proof.
  intros E. cbn [append] in E. assert (E0 : (number i ++ String "]" (String " " s) = number j ++ String "]" (String " " t))%string) by congruence.
  assert (R : forall i w, (number i ++ String "]" (String " " w) = (number i ++ "]") ++ String " " w)%string) by (intros; rewrite !sapp_assoc; reflexivity).
  rewrite !R in E0. apply name_ends in E0 as (J & E0); [|apply plain_app; [apply decimal_plain|cbn; repeat split; discriminate]..|apply blank_starts|apply blank_starts].
  split; [apply number_inj, (sapp_inv_r _ _ "]"), J|congruence].
Qed.
Lemma plain_blank s : ~ plain_name (s ++ " ").
Proof. induction s as [|c s IH]; cbn; [intros (H & _); congruence|]. intros (_ & _ & H). exact (IH H). Qed.
Lemma object_row_fun j c k d t : object_row (j, c) t -> object_row (k, d) t -> j = k /\ c = d.
Proof.
  intros (x & X & ->) (y & Y & E). apply bracket_ends in E as (J & E). cbn [fst snd] in *. subst k. split; [reflexivity|]. apply sapp_inv_r in E as ->. exact (number_fun _ _ _ _ X Y).
Qed.
Lemma no_object i ip j c : plain_name ip -> ~ object_row (j, c) ("[" ++ number i ++ "] " ++ ip).
Proof. intros P (x & _ & E). apply bracket_ends in E as (_ & E). subst ip. exact (plain_blank _ P). Qed.

Lemma rows_split cs : forall cs' i us us' r r', Forall2 object_row (combine (seq i (length cs)) cs) us -> Forall2 object_row (combine (seq i (length cs')) cs') us' ->
  (r = [] \/ exists k ip q, plain_name ip /\ r = ("[" ++ number k ++ "] " ++ ip)%string :: q) ->
  (r' = [] \/ exists k ip q, plain_name ip /\ r' = ("[" ++ number k ++ "] " ++ ip)%string :: q) ->
  us ++ r = us' ++ r' -> cs = cs' /\ r = r'.
Proof.
  induction cs as [|c cs IH]; intros [|c' cs'] i us us' r r' A B R R' E; cbn in A, B; inversion A; subst; inversion B; subst; cbn [app] in E.
  - auto.
  - exfalso. destruct R as [->|(k & ip & q & P & ->)]; [discriminate|]. match goal with H : object_row _ ?t, K : _ = ?t :: _ |- _ => assert (t = ("[" ++ number k ++ "] " ++ ip)%string) as -> by congruence; exact (no_object _ _ _ _ P H) end.
  - exfalso. destruct R' as [->|(k & ip & q & P & ->)]; [discriminate|]. match goal with H : object_row _ ?t, K : ?t :: _ = _ |- _ => assert (t = ("[" ++ number k ++ "] " ++ ip)%string) as -> by congruence; exact (no_object _ _ _ _ P H) end.
  - match goal with H : object_row (i, c) ?t, K : object_row (i, c') ?u |- _ => assert (t = u) by congruence; subst u; destruct (object_row_fun _ _ _ _ _ H K) as (_ & <-) end.
    match goal with H : Forall2 object_row (combine _ cs) ?l, K : Forall2 object_row (combine _ cs') ?l' |- _ => destruct (IH cs' (S i) l l' r r' H K R R' ltac:(congruence)) as (<- & <-) end. auto.
Qed.
Lemma blocks_start ns i bs : Forall2 node_rows (combine (seq i (length ns)) ns) bs -> Forall (fun n => plain_name (fst n)) ns ->
  concat bs = [] /\ ns = [] \/ exists k ip q, plain_name ip /\ concat bs = ("[" ++ number k ++ "] " ++ ip)%string :: q.
Proof.
  intros H P. destruct ns as [|n ns]; cbn in H; inversion H; subst; [left; auto|]. right. apply Forall_cons_iff in P as (P & _).
  match goal with K : node_rows _ _ |- _ => destruct K as (us & -> & _) end. cbn. do 3 eexists. split; [|reflexivity]. exact P.
Qed.
Lemma blocks_fun ns : forall ns' i bs bs', Forall2 node_rows (combine (seq i (length ns)) ns) bs -> Forall2 node_rows (combine (seq i (length ns')) ns') bs' ->
  Forall (fun n => plain_name (fst n)) ns -> Forall (fun n => plain_name (fst n)) ns' -> concat bs = concat bs' -> ns = ns'.
Proof.
  induction ns as [|n ns IH]; intros [|n' ns'] i bs bs' A B P P' E.
  - reflexivity.
  - destruct (blocks_start _ _ _ B P') as [(_ & K)|(k & ip & q & _ & K)]; [discriminate|]. inversion A; subst. rewrite K in E. discriminate.
  - destruct (blocks_start _ _ _ A P) as [(_ & K)|(k & ip & q & _ & K)]; [discriminate|]. inversion B; subst. rewrite K in E. discriminate.
  - cbn in A, B. inversion A as [|? b ? bs1 Hb A1]; subst. inversion B as [|? b' ? bs1' Hb' B1]; subst. apply Forall_cons_iff in P as (Pn & P), P' as (Pn' & P').
    destruct Hb as (us & -> & Us), Hb' as (us' & -> & Us'). cbn [concat app fst snd] in E. assert (E1 := f_equal (hd ""%string) E). cbn [hd] in E1.
    apply bracket_ends in E1 as (_ & E1). assert (E2 : us ++ concat bs1 = us' ++ concat bs1') by congruence.
    destruct (rows_split (snd n) (snd n') 0%nat us us' (concat bs1) (concat bs1') Us Us') as (Es & Er); [| |exact E2|].
    + destruct (blocks_start _ _ _ A1 P) as [(K & _)|K]; [now left|now right].
    + destruct (blocks_start _ _ _ B1 P') as [(K & _)|K]; [now left|now right].
    + rewrite (IH ns' (S i) bs1 bs1' A1 B1 P P' Er). f_equal. destruct n, n'. cbn in *. congruence.
Qed.
Lemma L_C122_list_readable : forall ns ns' ls, listing ns ls -> listing ns' ls ->
  Forall (fun n => plain_name (fst n)) ns -> Forall (fun n => plain_name (fst n)) ns' -> ns = ns'.
Proof. intros ns ns' ls (bs & A & ->) (bs' & B & E) P P'. exact (blocks_fun ns ns' 0%nat bs bs' A B P P' E). Qed.

(** ** The answer *)
Lemma answer_printed m : 0 <= m_ESV m -> Forall (fun p => 0 <= p_code p) (m_props m) -> Forall data_ok (m_props m) -> answer_rows (m_ESV m) (m_props m) (guide_print (Some m)).
Proof.
  intros E C D. do 2 eexists. split; [apply pct_X_number; [exact E|lia]|]. split; [|reflexivity].
  induction (m_props m) as [|p ps IH]; cbn [map]; constructor.
  - apply Forall_inv in C, D. do 2 eexists. split; [apply pct_X_number; [exact C|lia]|]. split; [apply upper_bytes; exact D|reflexivity].
  - apply IH; [exact (Forall_inv_tail C)|exact (Forall_inv_tail D)].
Qed.
Lemma L_C122_print : guide_print None = [] /\ forall a m, received_from a m -> answer_rows (m_ESV m) (m_props m) (guide_print (Some m)).
Proof.
  split; [reflexivity|]. intros a m (f & (En & Ty & Ca) & ->). apply answer_printed; cbn [set_from m_ESV m_props].
  - destruct En as ((E & _) & _); exact E.
  - destruct En as (_ & En). destruct (two_blocks (m_ESV f)) eqn:T.
    + rewrite <- Ca. cbn [carried m_props]. rewrite T. constructor.
    + destruct En as (_ & En). eapply Forall_impl; [|exact En]. intros p H. destruct H as (H & _). unfold byte_ok in H. lia.
  - exact (proj1 Ty).
Qed.
Lemma L_C122_print_readable : forall e ps e' ps' ls, answer_rows e ps ls -> answer_rows e' ps' ls -> e = e' /\ ps = ps'.
Proof.
  intros e ps e' ps' ls (a & us & A & U & ->) (b & us' & B & U' & E). assert (a = b) as <- by congruence. assert (us = us') as <- by congruence.
  split; [exact (number_fun _ _ _ _ A B)|]. clear - U U'. revert ps' U'. induction U as [|p u ps us H U IH]; intros ps' K; inversion K as [|q ? qs ? H' K1]; subst; [reflexivity|].
  f_equal; [|exact (IH _ K1)]. destruct H as (c & h & C & H & ->), H' as (c' & h' & C' & H' & E). cbn [append] in E.
  apply name_ends in E as (<- & E); [|exact (number_plain _ _ _ C)|exact (number_plain _ _ _ C')|apply blank_starts..]. assert (E1 : (h ++ " " = h' ++ " ")%string) by congruence. apply sapp_inv_r in E1 as <-.
  destruct p, q. cbn in *. f_equal; [exact (number_fun _ _ _ _ C C')|exact (bytes_fun _ _ _ H H')].
Qed.

(** ** The request *)
Lemma small_call T code c d : store_ok T -> small_write code c d -> call_ok T code (KPost [mkprop c d]).
Proof.
  intros So (Hc & Hp & Hd & Hl). unfold call_ok. cbn [request].
  assert (Hw : (length d <= 255)%nat) by (unfold zlen in Hl; lia).
  assert (W : forall t e x, (length x <= 255)%nat -> e = 0x60 \/ e = 0x50 -> (length (wire (mkmsg 0 0 t e [mkprop c x] [] [] None None)) <= 1024)%nat).
  { intros t e x Lx He. rewrite EndP.wire_len. unfold wire_body. cbn [m_ESV m_props]. destruct He as [-> | ->]; cbn [two_blocks Z.eqb orb]; cbn; rewrite app_nil_r; lia. }
  split; [exact Hc|]. split.
  { split; [unfold byte_ok; cbn; lia|]. split; [cbn; lia|]. repeat constructor; (cbn; lia). }
  split; [repeat constructor; exact Hd|]. split; [constructor|]. split; [apply W; [exact Hw|now left]|].
  destruct (T code) as [t|] eqn:E; [|exact Logic.I]. split; [|exact Logic.I]. cbn [reply].
  destruct (forallb _ _); [exact Logic.I|]. split; [|discriminate]. cbn [map]. unfold echo. cbn [p_code p_data]. apply W; [|now right].
  destruct (_ && _); [exact Hw|cbn; lia].
Qed.
Lemma mirrors_ext s T T' : (forall i, match T i, T' i with Some t, Some t' => forall c, t c = t' c | None, None => True | _, _ => False end) -> mirrors s T -> mirrors s T'.
Proof.
  intros E M k. specialize (M k). specialize (E k). destruct (zget k (ln_objs s)), (T k), (T' k); try contradiction; try exact Logic.I.
  destruct M as (A & B & C). split; [exact A|]. split; [exact B|]. intros c. rewrite C. apply E.
Qed.
Lemma stored_after T code c d : forall i, match store_after T code (KPost [mkprop c d]) i, stored T code c d i with Some t, Some t' => forall k, t k = t' k | None, None => True | _, _ => False end.
Proof.
  intros i. unfold store_after, stored. destruct (T code) as [t|] eqn:E.
  - destruct (Z.eqb_spec i code) as [->|N].
    + rewrite E. intros k. cbn [after pokes fold_left]. unfold poke. cbn [p_code p_data]. destruct (t k) as [l|]; [|reflexivity]. cbn [andb]. destruct (k =? c), (cl_write l); reflexivity.
    + destruct (T i) as [u|]; [|exact Logic.I]. intros k. destruct (u k); reflexivity.
  - destruct (T i) as [u|] eqn:U; [|exact Logic.I]. intros k. destruct (Z.eqb_spec i code) as [->|N]; [congruence|]. destruct (u k); reflexivity.
Qed.
Lemma first_is s an : first_found s an -> exists n, guide_first s = Ok n /\ dest_addr (DNode n) = Some an.
Proof. intros (c & n & r & C & F & D). exists n. unfold guide_first. rewrite C. unfold ctl_nodes, dvals. rewrite F. split; [reflexivity|exact D]. Qed.
Lemma guide_request_is code c d : guide_request code c d = request code (KPost [mkprop c d]).
Proof. reflexivity. Qed.
Lemma one_printed T code c d tid an : small_write code c d ->
  printed T code c d (guide_print (option_map (fun '(e, ps, ss, gs) => mkmsg tid code 0x0EF001 e ps ss gs (Some an) None) (store_reply T code (KPost [mkprop c d])))).
Proof.
  intros (Hc & Hp & Hd & Hl). unfold printed, store_reply. destruct (T code) as [t|]; [|reflexivity]. cbn [reply forallb map]. unfold writeable, echo, known, writeable. cbn [p_code p_data].
  destruct (t c) as [l|].
  - destruct (cl_write l); cbn [andb negb option_map]; [reflexivity|]. apply (answer_printed (mkmsg tid code 0x0EF001 0x50 [mkprop c d] [] [] (Some an) None)); cbn; [lia|repeat constructor; cbn; lia|repeat constructor; exact Hd].
  - cbn [andb negb option_map]. apply (answer_printed (mkmsg tid code 0x0EF001 0x50 [mkprop c []] [] [] (Some an) None)); cbn; [lia|repeat constructor; cbn; lia|repeat constructor].
Qed.
Lemma L_C122_post : forall (PS : PySet) wc wd jc jd ac an x T code c d,
  quiet wc -> reliable wc -> quiet wd -> reliable wd -> joined jc jd an x -> first_found (x_ctl x) an ->
  mirrors (x_dev x) T -> store_ok T -> small_write code c d ->
  exists x' ls, guide_post wc wd jc jd ac an (guide_request code c d) x = (x', Ok ls) /\ printed T code c d ls /\
  joined jc jd an x' /\ mirrors (x_dev x') (stored T code c d).
Proof.
  intros PS wc wd jc jd ac an x T code c d Qc Rc Qd Rd J F M So Sm. destruct (first_is _ _ F) as (n & G & D).
  destruct (SessP.one_call PS wc wd jc jd ac an (DNode n) x T code (KPost [mkprop c d]) Qc Rc Qd Rd D J M So (small_call T code c d So Sm)) as (x' & E & J' & M' & _ & _).
  unfold guide_post. rewrite G, guide_request_is, E. do 2 eexists. split; [reflexivity|]. split; [apply one_printed; exact Sm|]. split; [exact J'|].
  exact (mirrors_ext _ _ _ (stored_after T code c d) M').
Qed.
Lemma L_C122_send : forall (PS : PySet) wc wd jc jd ac an x T code c d,
  quiet wc -> reliable wc -> quiet wd -> reliable wd -> joined jc jd an x -> first_found (x_ctl x) an ->
  mirrors (x_dev x) T -> store_ok T -> small_write code c d ->
  exists x', guide_send wc wd jd ac an (guide_request code c d) x = (x', Ok true) /\ mirrors (x_dev x') (stored T code c d).
Proof.
  intros PS wc wd jc jd ac an x T code c d Qc Rc Qd Rd J F M So Sm. destruct (first_is _ _ F) as (n & G & D). pose proof (small_call T code c d So Sm) as Ok_.
  destruct (SessP.one_call PS wc wd jc jd ac an (DNode n) x T code (KPost [mkprop c d]) Qc Rc Qd Rd D J M So Ok_) as (x' & E & J' & M' & _ & _).
  destruct J as (Oc & (q & nd & Cq & _) & Tc & Od & Cd).
  destruct (SessP.post_sends wc (x_ctr x) (x_ctl x) jc ac an (DNode n) (request code (KPost [mkprop c d])) Qc Rc D Oc (ex_intro _ q Cq) Tc eq_refl) as (q' & m' & tc & _ & PB & _); [exact (proj1 (proj2 Ok_))|].
  unfold guide_send. rewrite G, guide_request_is. unfold transact in E. unfold post_begin in PB, E. rewrite Cq in PB, E.
  destruct (ctl_send wc (x_ctr x) (x_ctl x) (request code (KPost [mkprop c d])) (DNode n)) as [[[c1 tc1] m1] r1]. assert (r1 = Ok true) as -> by congruence.
  destruct (arrive wd (x_dtr x) (x_dev x) jd ac (reach an (since (x_ctr x) tc1))) as [d1 td1]. eexists. split; [reflexivity|]. cbn [x_dev].
  match type of E with context [arrive ?a ?b ?c ?d ?e ?f] => destruct (arrive a b c d e f) as [c2 tc2] end.
  assert (x_dev x' = d1) as <- by (assert (Ex : x' = mkworld c2 tc2 d1 td1) by congruence; rewrite Ex; reflexivity). exact (mirrors_ext _ _ _ (stored_after T code c d) M').
Qed.
Lemma L_C122_none : forall (PS : PySet) wc wd jc jd ac an m x c, ln_ctl (x_ctl x) = Some c -> c_found c = [] ->
  guide_list c = [] /\ guide_post wc wd jc jd ac an m x = (x, Err IndexError) /\ guide_send wc wd jd ac an m x = (x, Err IndexError).
Proof.
  intros PS wc wd jc jd ac an m x c C F. unfold guide_list, guide_post, guide_send, guide_first. rewrite C. unfold ctl_nodes, dvals. rewrite F. cbn [map]. auto.
Qed.
