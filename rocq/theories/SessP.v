(** Lemmas for C67. *)
From Verif Require Import PyBase BytesM EsvM MsgM PropM ObjM DbData DbM NodeM LocalM CtrlM
  SpecWire SpecObj SpecReq SpecDb SpecNode SpecProf SpecLocal SpecSrv SpecCtrl SpecEnd SpecSess DictP BytesP WireP CodecP ObjP MapP ReqP DbP NodeP ProfP LocalP AnswerP SrvP CtrlP EndP.
From Verif Require Import SpecReq.
Require Import ZifyBool.

Lemma joined_linked jc jd an code o x : linked jc jd an code o x <-> joined jc jd an x /\ zget code (ln_objs (x_dev x)) = Some o.
Proof. unfold linked, joined. tauto. Qed.

Lemma post_sends wc tr sc jc ac an d m : quiet wc -> reliable wc -> dest_addr d = Some an -> online sc jc -> (exists c, ln_ctl sc = Some c) ->
  0 <= g_tid (ln_mgr sc) <= 65535 -> m_TID m = 0 -> encodable m ->
  exists c m' tc, ln_ctl sc = Some c /\
  post_begin wc tr sc m d = (set_ln_ctl (Some (set_post (Some m') None c)) (set_ln_mgr (mkmgr (next_tid sc) (g_servers (ln_mgr sc))) sc), tc, m', Ok true) /\
  reach an (since tr tc) = [wire (as_received sc ac m)].
Proof.
  intros Qc Rc Da Oc (c & C) Tc T0 Em. set (t := next_tid sc). set (q := as_received sc ac m).
  destruct (local_send wc tr sc m (Some an)) as [[[c1 tc1] m1] r1] eqn:LS.
  destruct (local_send_ok wc tr sc m an) as (g' & t' & St & Gs & K & _). destruct (K Em) as (snds & m' & r & E & (Tri & Fo) & Re). clear K.
  rewrite LS in E. injection E as -> -> -> ->.
  unfold stamped in St. rewrite T0 in St. cbn [Z.eqb] in St. rewrite next_tid_spec in St by exact Tc. change (g_tid (ln_mgr sc) mod 65535 + 1) with t in St.
  assert (g' = mkmgr t (g_servers (ln_mgr sc)) /\ t' = t) as (-> & ->) by (split; congruence). clear St.
  assert (Wq : wire (set_TID t (set_SEOJ (source sc m) m)) = wire q).
  { unfold source. rewrite C. subst q t. destruct m. reflexivity. }
  rewrite Wq in Tri.
  pose proof (tries_reliable wc _ _ _ _ (wire_nonempty q) Rc Tri Fo) as TR. destruct (open_ifs sc) as [|i ifs] eqn:Oi; [exfalso; apply (proj1 Oc); exact Oi|].
  destruct TR as (n & -> & Np).
  assert (r = Ok true) as ->.
  { destruct r as [b|e].
    - destruct Re as (_ & Re). f_equal. apply Re. exists (i, wire q, an, Ok n). split; [now left|]. unfold delivered. cbn [snd]. lia.
    - exfalso. destruct Re as (y & [<-|[]] & Y). discriminate. }
  exists c, m', (tr ++ map ev_of [(i, wire q, an, Ok n)]). split; [exact C|]. split.
  - unfold post_begin. rewrite C. unfold ctl_send. rewrite Da, LS. reflexivity.
  - rewrite since_app. apply (reach_one an _ i (wire q) n (sent_evs _) Np).
Qed.

Lemma exchange_silent : forall (PS : PySet) wc wd jc jd ac an d m x,
  quiet wc -> reliable wc -> quiet wd -> dest_addr d = Some an -> joined jc jd an x ->
  let q := as_received (x_ctl x) ac m in
  m_TID m = 0 -> frame_msg (set_from None q) -> (length (wire q) <= 1024)%nat ->
  (zget (m_DEOJ m) (ln_objs (x_dev x)) = None \/
   exists o o' told, zget (m_DEOJ m) (ln_objs (x_dev x)) = Some o /\ obj_message_received o q = (o', told, Ok None)) ->
  exists x', transact wc wd jc jd ac an m d x = (x', None) /\ joined jc jd an x' /\ g_tid (ln_mgr (x_ctl x')) = next_tid (x_ctl x) /\
  forall k, zget k (ln_objs (x_dev x')) =
    match zget k (ln_objs (x_dev x)) with
    | Some o => Some (if k =? m_DEOJ m then fst (fst (obj_message_received o q)) else o)
    | None => None
    end.
Proof.
  intros PS wc wd jc jd ac an d m x Qc Rc Qd Da (Oc & (c & nd & C & Nd) & Tc & Od & Cd) q T0 Fq Lq An.
  unfold transact. set (sc := x_ctl x) in *. set (sd := x_dev x) in *.
  destruct (post_sends wc (x_ctr x) sc jc ac an d m Qc Rc Da Oc (ex_intro _ c C) Tc T0 (proj1 Fq)) as (c' & m' & tc & C' & PB & Re).
  rewrite C in C'. injection C' as <-. rewrite PB. change (as_received sc ac m) with q in Re. rewrite Re.
  assert (Hq : received_from ac q) by (exists (set_from None q); split; [exact Fq|reflexivity]).
  destruct (node_received wd (x_dtr x) sd q) as [[sd1 td1] rd] eqn:NR.
  destruct (node_received_spec wd (x_dtr x) sd ac q Hq) as (s2 & evs & r2 & E2 & LSp & _). rewrite NR in E2. injection E2 as <- -> <-.
  specialize (LSp (or_introl Cd)). unfold local_spec in LSp. change (m_DEOJ q) with (m_DEOJ m) in LSp.
  assert (Dv : rd = Ok tt /\ reach ac evs = [] /\ online sd1 jd /\ ln_ctl sd1 = None /\
    forall k, zget k (ln_objs sd1) = match zget k (ln_objs sd) with
    | Some o => Some (if k =? m_DEOJ m then fst (fst (obj_message_received o q)) else o) | None => None end).
  { destruct An as [Z|(o & o' & told & Z & Ob)]; rewrite Z in LSp.
    - destruct LSp as (-> & -> & ->). split; [reflexivity|]. split; [reflexivity|]. split; [exact Od|]. split; [exact Cd|].
      intros k. destruct (Z.eqb_spec k (m_DEOJ m)) as [->|_]; [rewrite Z; reflexivity|destruct (zget k _); reflexivity].
    - destruct LSp as (oe & snds2 & -> & Foe & [(_ & _ & NQ & _)|LSp]); [contradiction|]. rewrite Ob in LSp. destruct LSp as (_ & g2 & -> & G2 & -> & -> & ->).
      split; [reflexivity|]. split; [unfold reach; rewrite sent_app, (obj_events_sent _ _ _ Foe); reflexivity|]. split; [exact Od|]. split; [exact Cd|].
      intros k. change (ln_objs (set_ln_mgr (ln_mgr sd) (put_obj (m_DEOJ m) o' sd))) with (ln_objs (put_obj (m_DEOJ m) o' sd)). rewrite zget_put.
      destruct (Z.eqb_spec k (m_DEOJ m)) as [->|_]; [rewrite Z, Ob; reflexivity|destruct (zget k _); reflexivity]. }
  destruct Dv as (-> & Ra & Od1 & Cd1 & Ks).
  assert (Aq : arrive wd (x_dtr x) sd jd ac [wire q] = (sd1, x_dtr x ++ evs)).
  { change (wire q) with (wire (set_from None q)). apply arrive_one; [exact Od|exact Fq|exact Lq|]. exact NR. }
  rewrite Aq, since_app, Ra. cbn [arrive map run].
  eexists. split; [reflexivity|]. split.
  - split; [exact Oc|]. split; [do 2 eexists; split; [reflexivity|exact Nd]|]. split; [|split; [exact Od1|exact Cd1]].
    cbn [x_ctl ln_mgr set_ln_ctl set_ln_mgr g_tid]. unfold next_tid. pose proof (Z.mod_pos_bound (g_tid (ln_mgr sc)) 65535). lia.
  - split; [reflexivity|exact Ks].
Qed.

(** ** One object and its table *)
Definition holds (o : obj) (t : table) : Prop :=
  builtin (o_handler o) /\ wf_obj o /\ forall c, option_map (cell_of (o_handler o)) (get_property c o) = t c.
Definition table_ok (t : table) : Prop := forall c l, t c = Some l -> bytes_ok (cl_data l) /\ zlen (cl_data l) <= 255.

Lemma holds_read o t mp : holds o t -> read_answer o mp = (p_data (show t (p_code mp)), readable t (p_code mp)).
Proof.
  intros (_ & _ & H). unfold read_answer, show, readable. rewrite <- H. cbn [p_data]. destruct (get_property (p_code mp) o) as [p|]; [|reflexivity].
  cbn. destruct (can_read p); reflexivity.
Qed.
Lemma holds_write o t mp : holds o t -> write_answer o mp = (p_data (echo t mp), writeable t (p_code mp)).
Proof.
  intros (_ & _ & H). unfold write_answer, echo, writeable, known. rewrite <- H. cbn [p_data]. destruct (get_property (p_code mp) o) as [p|]; [|reflexivity].
  cbn. destruct (may_write (o_handler o) p); reflexivity.
Qed.
Lemma holds_answers_read o t cs : holds o t ->
  answers (read_answer o) (map (fun c => mkprop c []) cs) = map (show t) cs /\
  all_accepted (read_answer o) (map (fun c => mkprop c []) cs) = forallb (readable t) cs.
Proof.
  intros H. induction cs as [|c cs (A & B)]; [split; reflexivity|]. unfold answers, all_accepted in *. cbn [map forallb p_code]. rewrite A, B, (holds_read o t _ H). split; reflexivity.
Qed.
Lemma holds_answers_write o t ps : holds o t ->
  answers (write_answer o) ps = map (echo t) ps /\ all_accepted (write_answer o) ps = forallb (fun p => writeable t (p_code p)) ps.
Proof.
  intros H. induction ps as [|p ps (A & B)]; [split; reflexivity|]. unfold answers, all_accepted in *. cbn [map forallb]. rewrite A, B, (holds_write o t _ H). split; reflexivity.
Qed.
Lemma pokes_at ps : forall t c, pokes t ps c =
  match t c with
  | Some l => Some (if cl_write l then match last_data c ps with Some d => mkcell d (cl_read l) true | None => l end else l)
  | None => None
  end.
Proof.
  induction ps as [|p ps IH]; intros t c; cbn [pokes fold_left last_data].
  - destruct (t c) as [[d r []]|]; reflexivity.
  - fold (pokes (poke t p) ps). rewrite IH. unfold poke. destruct (t c) as [l|]; [|reflexivity]. rewrite (Z.eqb_sym (p_code p) c).
    destruct (c =? p_code p); destruct (cl_write l) eqn:W; cbn [andb cl_write cl_read]; rewrite ?W; destruct (last_data c ps); reflexivity.
Qed.
Lemma holds_written o t ps o' : holds o t -> written o ps o' -> holds o' (pokes t ps).
Proof.
  intros (B & W & H) Wr. assert (W' : wf_obj o').
  { destruct Wr as (_ & _ & G). intros c p. rewrite G. destruct (get_property c o) as [q|] eqn:Q; [|discriminate]. specialize (W c q Q).
    destruct (may_write (o_handler o) q); [destruct (last_data c ps) as [d|]|]; intros [= <-]; exact W. }
  destruct Wr as (E & _ & G). assert (Eh : o_handler o' = o_handler o) by (rewrite E; destruct o; reflexivity).
  split; [rewrite Eh; exact B|]. split; [exact W'|]. intros c. rewrite Eh, pokes_at, <- H, G. destruct (get_property c o) as [p|]; [|reflexivity]. cbn [option_map].
  change (cl_write (cell_of (o_handler o) p)) with (may_write (o_handler o) p). destruct (may_write (o_handler o) p) eqn:M; [|reflexivity].
  destruct (last_data c ps); [|reflexivity]. f_equal. unfold cell_of. change (can_read (set_op_data l p)) with (can_read p).
  assert (M' : may_write (o_handler o) (set_op_data l p) = true) by (rewrite <- M; destruct (o_handler o); reflexivity). rewrite M'. reflexivity.
Qed.
Lemma last_data_in c ps d : last_data c ps = Some d -> exists p, In p ps /\ p_data p = d.
Proof.
  induction ps as [|p ps IH]; cbn [last_data]; [discriminate|]. destruct (last_data c ps) eqn:L.
  - intros E. destruct (IH E) as (q & I & Q). exists q. split; [now right|exact Q].
  - destruct (p_code p =? c); [|discriminate]. intros E. exists p. split; [now left|congruence].
Qed.
Lemma pokes_ok t ps : table_ok t -> fits_list ps -> Forall data_ok ps -> table_ok (pokes t ps).
Proof.
  intros T (_ & F) D c l. rewrite pokes_at. rewrite Forall_forall in F, D. destruct (t c) as [l0|] eqn:E; [|discriminate]. specialize (T c l0 E). intros EQ.
  destruct (cl_write l0); [|assert (l = l0) by congruence; subst; exact T]. destruct (last_data c ps) as [d|] eqn:L; [|assert (l = l0) by congruence; subst; exact T].
  assert (l = mkcell d (cl_read l0) true) as -> by congruence. destruct (last_data_in _ _ _ L) as (p & I & <-). split; [exact (D p I)|exact (proj2 (F p I))].
Qed.

Definition answer_msg (t code : Z) (r : Z * list prop * list prop * list prop) : msg :=
  let '(e, ps, ss, gs) := r in mkmsg t code 0x0EF001 e ps ss gs None None.

Lemma obj_call s ac code o t k : holds o t -> match k with KWriteRead _ cs => forallb (known t) cs = true | _ => True end ->
  exists o', obj_message_received o (as_received s ac (request code k)) = (o', o_obs o, Ok (option_map (answer_msg (next_tid s) code) (reply t k))) /\ holds o' (after t k).
Proof.
  intros H Kn. pose proof H as (B & W & _). destruct k as [cs|ps|ps|ps cs]; cbn [request reply after option_map answer_msg].
  - exists o. split; [|exact H]. rewrite L_C20_builtin_read; [|exact B|exact W|split; reflexivity|reflexivity].
    unfold as_received, read_request. cbn [m_props m_TID m_DEOJ m_SEOJ]. destruct (holds_answers_read o t cs H) as (-> & ->). reflexivity.
  - set (q := as_received s ac (write_request code ps)).
    destruct (L_C21_builtin_write o q B W) as (o1 & r & Ob & Wo & Rp & Rn); [split; reflexivity|now right|].
    pose proof (L_C23_codes_partial o q o1 _ r B W (conj eq_refl eq_refl) (or_intror (or_introl eq_refl)) Ob) as Ce.
    change (request_ok o q) with (all_accepted (write_answer o) ps) in Ce. change (m_props q) with ps in Rp, Wo. change (ok_service (m_ESV q)) with (Some 0x71) in Ce. change (m_ESV q =? 0x61) with true in Ce.
    destruct (holds_answers_write o t ps H) as (An & Ac). rewrite Ac in Ce. exists o1. split; [|exact (holds_written o t ps o1 H Wo)]. rewrite Ob.
    destruct r as [rsp|]; [|destruct (forallb _ ps); discriminate]. specialize (Rp rsp eq_refl). rewrite An in Rp. cbn [option_map] in Ce.
    destruct (response_shape _ _ _ _ _ Ob) as (e & ps' & ss & gs & Er & _ & Sh). destruct (Sh eq_refl) as (-> & -> & _).
    assert (e = if forallb (fun p => writeable t (p_code p)) ps then 0x71 else 0x50) as -> by (rewrite Er in Ce; cbn in Ce; destruct (forallb _ ps); congruence).
    assert (ps' = map (echo t) ps) as -> by (rewrite Er in Rp; exact Rp). rewrite Er. reflexivity.
  - set (q := as_received s ac (mkmsg 0 0 code 0x60 ps [] [] None None)).
    destruct (L_C21_builtin_write o q B W) as (o1 & r & Ob & Wo & Rp & Rn); [split; reflexivity|now left|].
    pose proof (L_C23_codes_partial o q o1 _ r B W (conj eq_refl eq_refl) (or_introl eq_refl) Ob) as Ce.
    change (request_ok o q) with (all_accepted (write_answer o) ps) in Ce. change (m_props q) with ps in Rp, Wo, Rn. change (ok_service (m_ESV q)) with (@None Z) in Ce. change (m_ESV q =? 0x61) with false in Ce. change (error_service (m_ESV q)) with (Some 0x50) in Ce.
    destruct (holds_answers_write o t ps H) as (An & Ac). rewrite Ac in *. exists o1. split; [|exact (holds_written o t ps o1 H Wo)]. rewrite Ob.
    destruct (forallb (fun p => writeable t (p_code p)) ps).
    + destruct r as [rsp|]; [discriminate|reflexivity].
    + destruct r as [rsp|]; [|discriminate]. specialize (Rp rsp eq_refl). rewrite An in Rp. cbn [option_map] in Ce.
      destruct (response_shape _ _ _ _ _ Ob) as (e & ps' & ss & gs & Er & _ & Sh). destruct (Sh eq_refl) as (-> & -> & _).
      assert (e = 0x50) as -> by (rewrite Er in Ce; cbn in Ce; congruence).
      assert (ps' = map (echo t) ps) as -> by (rewrite Er in Rp; exact Rp). rewrite Er. reflexivity.
  - set (q := as_received s ac (write_read_request code ps cs)).
    destruct (L_C22_write_read_partial o q B W eq_refl eq_refl) as (o1 & Wo & Ob).
    change (m_gets q) with (map (fun c => mkprop c []) cs) in Ob. change (m_sets q) with ps in *. exists o1. pose proof (holds_written o t ps o1 H Wo) as H1. split; [|exact H1].
    destruct (holds_answers_write o t ps H) as (An & Ac). destruct (holds_answers_read o t cs H) as (_ & Ac2). destruct (holds_answers_read o1 _ cs H1) as (An1 & _).
    rewrite An, Ac, Ac2, An1 in Ob.
    assert (Hs : forallb (fun mp => has_property (p_code mp) o) (map (fun c => mkprop c []) cs) = true).
    { clear -H Kn. induction cs as [|c cs IH]; [reflexivity|]. cbn [map forallb] in *. apply andb_prop in Kn as (K1 & K2). rewrite (IH K2), andb_true_r. unfold has_property. cbn [p_code].
      unfold known in K1. destruct H as (_ & _ & H). rewrite <- H in K1. destruct (get_property c o); [reflexivity|discriminate]. }
    rewrite Hs in Ob. exact Ob.
Qed.

(** ** One call *)
Lemma show_fits t cs : table_ok t -> fits_list (map (fun c => mkprop c []) cs) -> fits_list (map (show t) cs) /\ Forall data_ok (map (show t) cs).
Proof.
  intros T (L & F). unfold fits_list. unfold zlen in *. rewrite map_length in *. rewrite Forall_map in F.
  assert (G : forall c, bytes_ok (p_data (show t c)) /\ zlen (p_data (show t c)) <= 255).
  { intros c. unfold show. cbn [p_data]. destruct (t c) as [l|] eqn:E; [|split; [constructor|cbn; lia]]. specialize (T c l E). destruct (cl_read l); [exact T|split; [constructor|cbn; lia]]. }
  split; [split; [exact L|]|]; rewrite Forall_map.
  - eapply Forall_impl; [|exact F]. intros c (B & _). split; [exact B|]. apply G.
  - apply Forall_forall. intros c _. apply G.
Qed.
Lemma echo_fits t ps : fits_list ps -> Forall data_ok ps -> fits_list (map (echo t) ps) /\ Forall data_ok (map (echo t) ps).
Proof.
  intros (L & F) D. unfold fits_list. unfold zlen in *. rewrite map_length in *.
  split; [split; [exact L|]|]; rewrite Forall_map.
  - eapply Forall_impl; [|exact F]. intros p (B & Z). split; [exact B|]. unfold echo. cbn [p_data]. destruct (_ && _); [exact Z|cbn; lia].
  - eapply Forall_impl; [|exact D]. intros p B. unfold echo, data_ok. cbn [p_data]. destruct (_ && _); [exact B|constructor].
Qed.
Lemma reply_frame tid code t k e ps ss gs : 0 <= tid < 2 ^ 16 -> 0 <= code < 2 ^ 24 -> table_ok t -> reply t k = Some (e, ps, ss, gs) ->
  encodable (request code k) -> Forall data_ok (m_props (request code k)) -> Forall data_ok (m_sets (request code k)) ->
  frame_msg (mkmsg tid code 0x0EF001 e ps ss gs None None) /\ e <> 0x73.
Proof.
  intros Ti Co T R (_ & En) D1 D2. destruct k as [cs|qs|qs|qs cs]; cbn [request] in *; unfold read_request, write_request, write_read_request in *; cbn [m_ESV m_props m_sets m_gets two_blocks Z.eqb] in *; cbn [reply] in R.
  - destruct (show_fits t cs T En) as (A & B). assert (ps = map (show t) cs /\ ss = [] /\ gs = [] /\ (e = 0x72 \/ e = 0x52)) as (-> & -> & -> & Ee) by (destruct (forallb _ cs); repeat split; try congruence; [left|right]; congruence).
    split; [|lia]. apply frame_one; try assumption; [lia|unfold byte_ok; lia|]. destruct Ee as [-> | ->]; reflexivity.
  - destruct (echo_fits t qs En D1) as (A & B). assert (ps = map (echo t) qs /\ ss = [] /\ gs = [] /\ (e = 0x71 \/ e = 0x50)) as (-> & -> & -> & Ee) by (destruct (forallb _ qs); repeat split; try congruence; [left|right]; congruence).
    split; [|lia]. apply frame_one; try assumption; [lia|unfold byte_ok; lia|]. destruct Ee as [-> | ->]; reflexivity.
  - destruct (echo_fits t qs En D1) as (A & B). destruct (forallb _ qs); [discriminate|]. assert (ps = map (echo t) qs /\ ss = [] /\ gs = [] /\ e = 0x50) as (-> & -> & -> & ->) by (repeat split; congruence).
    split; [|lia]. apply frame_one; try assumption; [lia|unfold byte_ok; lia|reflexivity].
  - change (two_blocks 110) with true in En. cbv iota in En. destruct En as (E1 & E2). destruct (echo_fits t qs E1 D2) as (A & B). destruct (show_fits (pokes t qs) cs (pokes_ok t qs T E1 D2) E2) as (C & D).
    assert (ps = [] /\ ss = map (echo t) qs /\ gs = map (show (pokes t qs)) cs /\ (e = 0x7E \/ e = 0x5E)) as (-> & -> & -> & Ee) by (destruct (_ && _); repeat split; try congruence; [left|right]; congruence).
    split; [|lia]. apply frame_two; try assumption; [lia|unfold byte_ok; lia|]. destruct Ee as [-> | ->]; reflexivity.
Qed.

Lemma request_frame s ac code k : 0 <= code < 2 ^ 24 -> encodable (request code k) -> Forall data_ok (m_props (request code k)) -> Forall data_ok (m_sets (request code k)) ->
  frame_msg (set_from None (as_received s ac (request code k))).
Proof.
  intros Co (_ & En) D1 D2. pose proof (next_tid_range s) as T.
  assert (Bd : forall cs, Forall data_ok (map (fun c => mkprop c []) cs)) by (intros cs; rewrite Forall_map; apply Forall_forall; intros; constructor).
  destruct k as [cs|qs|qs|qs cs]; cbn [request] in *; unfold as_received, set_from, read_request, write_request, write_read_request in *; cbn [m_TID m_SEOJ m_DEOJ m_ESV m_props m_sets m_gets m_from m_to] in *.
  - apply frame_one; try assumption; [lia|unfold byte_ok; lia|reflexivity].
  - apply frame_one; try assumption; [lia|unfold byte_ok; lia|reflexivity].
  - apply frame_one; try assumption; [lia|unfold byte_ok; lia|reflexivity].
  - change (two_blocks 110) with true in En. cbv iota in En. destruct En. apply frame_two; try assumption; [lia|unfold byte_ok; lia|reflexivity|apply Bd].
Qed.

Lemma after_ok t k code : table_ok t -> encodable (request code k) -> Forall data_ok (m_props (request code k)) -> Forall data_ok (m_sets (request code k)) -> table_ok (after t k).
Proof.
  intros T (_ & En) D1 D2. destruct k as [cs|qs|qs|qs cs]; cbn [request after] in *; cbn [read_request write_request write_read_request m_ESV m_props m_sets m_gets two_blocks] in *; [exact T|apply pokes_ok; assumption..|].
  change (two_blocks 110) with true in En. cbv iota in En. destruct En. apply pokes_ok; assumption.
Qed.

Lemma one_call (PS : PySet) wc wd jc jd ac an d x S code k :
  quiet wc -> reliable wc -> quiet wd -> reliable wd -> dest_addr d = Some an -> joined jc jd an x ->
  mirrors (x_dev x) S -> store_ok S -> call_ok S code k ->
  exists x', transact wc wd jc jd ac an (request code k) d x =
    (x', option_map (fun '(e, ps, ss, gs) => mkmsg (next_tid (x_ctl x)) code 0x0EF001 e ps ss gs (Some an) None) (store_reply S code k)) /\
  joined jc jd an x' /\ mirrors (x_dev x') (store_after S code k) /\ store_ok (store_after S code k) /\ g_tid (ln_mgr (x_ctl x')) = next_tid (x_ctl x).
Proof.
  intros Qc Rc Qd Rd Da J M So (Co & En & D1 & D2 & Le & Cr).
  pose proof (request_frame (x_ctl x) ac code k Co En D1 D2) as Fq. pose proof (next_tid_range (x_ctl x)) as Ti.
  assert (Lq : (length (wire (as_received (x_ctl x) ac (request code k))) <= 1024)%nat).
  { rewrite wire_len in *. destruct k; exact Le. }
  assert (Dm : m_DEOJ (request code k) = code) by (destruct k; reflexivity). assert (T0 : m_TID (request code k) = 0) by (destruct k; reflexivity).
  assert (Rq : is_request (m_ESV (request code k)) = true) by (destruct k; reflexivity).
  unfold store_reply, store_after. pose proof (M code) as Mc. destruct (S code) as [t|] eqn:Sc.
  - destruct (zget code (ln_objs (x_dev x))) as [o|] eqn:Zo; [|contradiction]. destruct Cr as (Ra & Kn).
    assert (To : table_ok t) by (intros c l; exact (So code t c l Sc)).
    destruct (obj_call (x_ctl x) ac code o t k Mc Kn) as (o' & Ob & H').
    assert (So' : store_ok (fun i => if i =? code then Some (after t k) else S i)).
    { intros i t0 c l. destruct (i =? code); [|apply So]. intros E. assert (t0 = after t k) as -> by congruence. apply (after_ok t k code To En D1 D2). }
    destruct (reply t k) as [[[[e ps] ss] gs]|] eqn:Rp.
    + destruct (reply_frame _ code t k e ps ss gs Ti Co To Rp En D1 D2) as (Fr & N73). destruct Ra as (La & Ea).
      assert (Lk : linked jc jd an code o x) by (apply joined_linked; auto).
      destruct (L_C55_exchange PS wc wd jc jd ac an d (request code k) code o o' (o_obs o) _ x Qc Rc Qd Rd Da Lk T0 Dm Rq Fq Lq Ob N73 Fr) as (x' & X & Lk' & G & K).
      { rewrite wire_len in *. exact La. }
      { exact Ea. }
      apply joined_linked in Lk' as (J' & Z'). exists x'. split; [exact X|]. split; [exact J'|]. split; [|split; [exact So'|exact G]].
      intros i. destruct (Z.eqb_spec i code) as [->|Ni]; [rewrite Z'; exact H'|]. rewrite (K i Ni). exact (M i).
    + destruct (exchange_silent PS wc wd jc jd ac an d (request code k) x Qc Rc Qd Da J T0 Fq Lq) as (x' & X & J' & G & K).
      { right. rewrite Dm. exists o, o', (o_obs o). split; [exact Zo|exact Ob]. }
      exists x'. split; [exact X|]. split; [exact J'|]. split; [|split; [exact So'|exact G]].
      intros i. rewrite K, Dm. specialize (M i). destruct (Z.eqb_spec i code) as [->|Ni]; [rewrite Zo, Ob; exact H'|]. destruct (zget i (ln_objs (x_dev x))); exact M.
  - destruct (zget code (ln_objs (x_dev x))) as [o|] eqn:Zo; [contradiction|].
    destruct (exchange_silent PS wc wd jc jd ac an d (request code k) x Qc Rc Qd Da J T0 Fq Lq) as (x' & X & J' & G & K); [left; rewrite Dm; exact Zo|].
    exists x'. split; [exact X|]. split; [exact J'|]. split; [|split; [exact So|exact G]].
    intros i. rewrite K, Dm. specialize (M i). destruct (Z.eqb_spec i code) as [->|Ni]; [rewrite Zo, Sc; exact Logic.I|]. destruct (zget i (ln_objs (x_dev x))); exact M.
Qed.

(** C67 *)
Lemma L_C67_session_partial : forall (PS : PySet) wc wd jc jd ac an d x S l,
  quiet wc -> reliable wc -> quiet wd -> reliable wd -> dest_addr d = Some an ->
  joined jc jd an x -> mirrors (x_dev x) S -> store_ok S -> session_ok S l ->
  exists x', client wc wd jc jd ac an d l x = (x', replies an (next_tid (x_ctl x)) S l) /\
  joined jc jd an x' /\ mirrors (x_dev x') (store_run S l).
Proof.
  intros PS wc wd jc jd ac an d x S l Qc Rc Qd Rd Da. revert x S. induction l as [|[code k] l IH]; intros x S J M So Ok.
  - exists x. cbn. auto.
  - destruct Ok as (Oc & Ol). destruct (one_call PS wc wd jc jd ac an d x S code k Qc Rc Qd Rd Da J M So Oc) as (x1 & X & J1 & M1 & S1 & G).
    destruct (IH x1 _ J1 M1 S1 Ol) as (x2 & X2 & J2 & M2). exists x2. cbn [client replies store_run]. rewrite X, X2.
    split; [|split; [exact J2|exact M2]]. assert (Nt : next_tid (x_ctl x1) = next_tid (x_ctl x) mod 65535 + 1) by (unfold next_tid at 1; rewrite G; reflexivity).
    rewrite Nt. reflexivity.
Qed.
