(** Lemmas for C72 (answers) and C88. *)
From Verif Require Import PyBase BytesM EsvM MsgM PropM ObjM DbData DbM NodeM LocalM CtrlM DictP
  SpecWire SpecObj SpecReq SpecNode SpecProf SpecLocal SpecSrv SpecCtrl SpecEnd ObjP MapP ReqP NodeP LocalP AnswerP CtrlP EndP MonoM SpecMono MonoP SpecLight.
From Verif Require Import SpecReq.

Lemma light_reads l : forall o, mono o -> exists o' n, do_loop do_read o l = (o', Ok (answers (read_answer o) l, n)) /\
  mono o' /\ (forall c, get_property c o' = get_property c o) /\ 0 <= n <= zlen l /\ (n =? zlen l) = all_accepted (read_answer o) l.
Proof.
  induction l as [|mp l IH]; intros o M; cbn [do_loop].
  - exists o, 0. split; [reflexivity|]. split; [exact M|]. split; [reflexivity|]. split; [cbn; lia|reflexivity].
  - pose proof M as (Hd & W). unfold do_read at 1. unfold answers, all_accepted. cbn [map forallb]. unfold read_answer at 1 3. unfold zlen. cbn [length].
    rewrite Nat2Z.inj_succ. fold (zlen l).
    destruct (get_property (p_code mp) o) as [p|] eqn:G.
    2:{ destruct (IH o M) as (o' & n & -> & M' & S & N & A). exists o', (0 + n). split; [reflexivity|]. split; [exact M'|]. split; [exact S|]. cbn [snd andb]. split; [lia|]. apply Z.eqb_neq. lia. }
    unfold read_requested. rewrite Hd. unfold mono_handler. cbn [h_read]. unfold mono_read. rewrite (W _ _ G). pose proof G as G'. unfold get_property in G'. rewrite G'.
    destruct (mono_call (o_props o) o M (fun c => eq_refl)) as (M1 & _). set (o1 := after_call (o_props o) o) in *.
    assert (S1 : forall c, get_property c o1 = get_property c o) by reflexivity.
    assert (R1 : read_answer o1 = read_answer o) by reflexivity.
    destruct (IH o1 M1) as (o' & n & El & M' & S & N & A). rewrite read_enabled_eq. unfold current. rewrite S1, G.
    destruct (can_read p); rewrite El.
    + exists o', (1 + n). split; [reflexivity|]. split; [exact M'|]. split; [exact S|]. split; [lia|]. cbn [snd andb]. rewrite R1 in A. unfold all_accepted in A. rewrite <- A.
      destruct (Z.eqb_spec n (zlen l)); [apply Z.eqb_eq|apply Z.eqb_neq]; lia.
    + exists o', (0 + n). split; [reflexivity|]. split; [exact M'|]. split; [exact S|]. split; [lia|]. cbn [snd andb]. apply Z.eqb_neq. lia.
Qed.
Lemma L_C72_read : forall o m, a_light mono_handler o -> plain m -> m_ESV m = 0x62 -> exists o',
  obj_message_received o m = (o', o_obs o, Ok (Some (mkmsg (m_TID m) (m_DEOJ m) (m_SEOJ m)
    (if all_accepted (read_answer o) (m_props m) then 0x72 else 0x52) (answers (read_answer o) (m_props m)) [] [] None None))) /\
  a_light mono_handler o' /\ forall c, get_property c o' = get_property c o.
Proof.
  intros o m M Pl E. unfold plain in Pl. rewrite E in Pl. cbn in Pl. destruct Pl as (Ps & Pg).
  destruct (light_reads (m_props m) o M) as (o' & n & El & M' & S & _ & A). exists o'. split; [|split; assumption].
  unfold obj_message_received. rewrite E. cbn [is_request negb]. rewrite (proj1 M). unfold mono_handler. cbn iota. 
  change (is_request 0x62) with true. change (is_write_read_request 0x62) with false. cbn [negb]. cbn iota. change (do_plain 0x62) with do_read. rewrite El.
  unfold OPC, OPCSet, OPCGet. rewrite Ps, Pg. change (zlen []) with 0. rewrite !Z.add_0_r. rewrite A. destruct (all_accepted (read_answer o) (m_props m)); reflexivity.
Qed.
Lemma L_C72_write : forall o m v y, a_light mono_handler o -> status o = Some [y] ->
  m_ESV m = 0x61 -> m_props m = [mkprop 0x80 [v]] -> m_sets m = [] -> m_gets m = [] -> exists o',
  obj_message_received o m = (o', o_obs o, Ok (Some (mkmsg (m_TID m) (m_DEOJ m) (m_SEOJ m)
    (if on_offb v then 0x71 else 0x50) [mkprop 0x80 (if on_offb v then [] else [v])] [] [] None None))) /\
  a_light mono_handler o' /\ status o' = Some [if on_offb v then v else y] /\
  forall c, option_map (set_op_data []) (get_property c o') = option_map (set_op_data []) (get_property c o).
Proof.
  intros o m v y M S E P Ps Pg. pose proof M as (Hd & W). unfold status in S. destruct (get_property 0x80 o) as [p|] eqn:G; [|discriminate]. injection S as S.
  assert (K : exists o', do_write o (mkprop 0x80 [v]) = (o', Ok (mkprop 0x80 (if on_offb v then [] else [v]), on_offb v)) /\ mono o' /\ status o' = Some [if on_offb v then v else y] /\
    forall c, option_map (set_op_data []) (get_property c o') = option_map (set_op_data []) (get_property c o)).
  { unfold do_write. cbn [p_code p_data]. rewrite G. unfold write_requested. rewrite Hd. unfold mono_handler. cbn [h_write]. unfold mono_write. rewrite (W _ _ G), S.
    change (0x80 =? OPERATION_STATUS) with true. change (zlen [y] =? 1) with true. cbn [negb]. cbn iota. change STATUS_ON with 0x30. change STATUS_OFF with 0x31.
    assert (Fin : forall w, mono (store 0x80 [v] (after_call (set_status w (o_props o)) o)) /\ status (store 0x80 [v] (after_call (set_status w (o_props o)) o)) = Some [v] /\
      forall c, option_map (set_op_data []) (get_property c (store 0x80 [v] (after_call (set_status w (o_props o)) o))) = option_map (set_op_data []) (get_property c o)).
    { intros w. destruct (mono_set_status w o M) as (M2 & S2). split; [apply mono_store; exact M2|]. split.
      - rewrite status_store. cbn [Z.eqb Pos.eqb]. rewrite S2. unfold status. rewrite G. reflexivity.
      - intros c. unfold store. rewrite set_property_data_get. unfold get_property at 1 2. cbn [after_call o_props]. rewrite !set_status_get. fold (get_property c o).
        destruct (Z.eqb_spec 128 c) as [<-|N]; [rewrite G; reflexivity|]. rewrite (proj2 (Z.eqb_neq c 128)) by lia. reflexivity. }
    unfold on_offb. destruct (Z.eqb_spec v 0x30) as [->|N1]; cbn [negb andb orb].
    { eexists. split; [reflexivity|]. apply Fin. }
    destruct (Z.eqb_spec v 0x31) as [->|N2]; cbn [negb andb orb].
    { eexists. split; [reflexivity|]. apply Fin. }
    eexists. split; [reflexivity|]. destruct (mono_call (o_props o) o M (fun c => eq_refl)) as (M1 & S1). split; [exact M1|]. split; [rewrite S1; unfold status; rewrite G; cbn; congruence|]. reflexivity. }
  destruct K as (o' & K & M' & S' & Fr). exists o'. split; [|auto].
  unfold obj_message_received. rewrite E, Hd. unfold mono_handler. change (is_request 0x61) with true. change (is_write_read_request 0x61) with false. cbn [negb]. cbn iota. change (do_plain 0x61) with do_write.
  rewrite P. cbn [do_loop]. rewrite K. unfold OPC, OPCSet, OPCGet. rewrite P, Ps, Pg. destruct (on_offb v); reflexivity.
Qed.

Lemma shining_status h y o : shining h y o -> status o = Some [y].
Proof. intros (_ & p & G & D & _). unfold status. rewrite G. cbn. congruence. Qed.
Lemma L_C88_switch : forall (PS : PySet) wc wd jc jd ac an d xs o y x,
  quiet wc -> reliable wc -> quiet wd -> reliable wd -> dest_addr d = Some an ->
  linked jc jd an 0x029101 o x -> shining mono_handler y o -> on_off y -> Forall byte_ok xs ->
  exists x1 ms o1 x2 m,
  switch_all wc wd jc jd ac an d xs x = (x1, ms) /\
  (* every request is answered: accepted exactly for on and off *)
  map seen ms = map (fun v => Some (if on_offb v then (0x71, [mkprop 0x80 []]) else (0x50, [mkprop 0x80 [v]]))) xs /\
  (* the light is in the last accepted state, and says so *)
  linked jc jd an 0x029101 o1 x1 /\ shining mono_handler (last (filter on_offb xs) y) o1 /\
  transact wc wd jc jd ac an (read_request 0x029101 [0x80]) d x1 = (x2, Some m) /\
  m_ESV m = 0x72 /\ m_SEOJ m = 0x029101 /\ m_props m = [mkprop 0x80 [last (filter on_offb xs) y]] /\ m_from m = Some an /\
  (* nothing else has changed in the device *)
  forall k, k <> 0x029101 -> zget k (ln_objs (x_dev x2)) = zget k (ln_objs (x_dev x)).
Proof.
  intros PS wc wd jc jd ac an d xs. induction xs as [|v xs IH]; intros o y x Qc Rc Qd Rd Da Lk Sh Oy Fx.
  - (* the read *)
    destruct Sh as (M & p & G & Dp & Cr). pose proof (next_tid_range (x_ctl x)) as Tx.
    set (q := as_received (x_ctl x) ac (read_request 0x029101 [0x80])).
    destruct (L_C72_read o q M (conj eq_refl eq_refl) eq_refl) as (o1 & Ob & M1 & S1).
    change (m_props q) with [mkprop 0x80 []] in Ob. unfold all_accepted, answers in Ob. cbn [map forallb] in Ob. unfold read_answer in Ob. cbn [p_code] in Ob. rewrite G, Cr, Dp in Ob. cbn [fst snd andb] in Ob.
    set (rsp := mkmsg _ _ _ _ _ _ _ _ _) in Ob.
    assert (By : byte_ok y) by (destruct Oy as [-> | ->]; unfold byte_ok; lia).
    destruct (L_C55_exchange PS wc wd jc jd ac an d (read_request 0x029101 [0x80]) 0x029101 o o1 (o_obs o) rsp x Qc Rc Qd Rd Da Lk) as (x2 & X2 & Lk2 & _ & K2).
    + reflexivity.
    + reflexivity.
    + reflexivity.
    + apply frame_one; [exact Tx|cbn; lia|cbn; lia|unfold byte_ok; cbn; lia|reflexivity| |].
      * split; [cbn; lia|]. repeat constructor; unfold byte_ok; cbn; lia.
      * repeat constructor.
    + rewrite wire_len. cbn. lia.
    + exact Ob.
    + cbn. lia.
    + apply frame_one; [exact Tx|cbn; lia|cbn; lia|unfold byte_ok; cbn; lia|reflexivity| |].
      * split; [cbn; lia|]. repeat constructor; unfold byte_ok; cbn; lia.
      * constructor; [|constructor]. constructor; [exact By|constructor].
    + rewrite wire_len. cbn. lia.
    + intros _. reflexivity.
    + exists x, [], o, x2, (set_from (Some an) rsp). split; [reflexivity|]. split; [reflexivity|]. split; [exact Lk|]. split; [split; [exact M|exists p; auto]|]. split; [exact X2|].
      do 4 (split; [reflexivity|]). exact K2.
  - (* one write *)
    apply Forall_cons_iff in Fx as (Bv & Fx). destruct Sh as (M & p & G & Dp & Cr). pose proof (next_tid_range (x_ctl x)) as Tx.
    set (q := as_received (x_ctl x) ac (write_request 0x029101 [mkprop 0x80 [v]])).
    destruct (L_C72_write o q v y M) as (o1 & Ob & M1 & S1 & Fr1); [unfold status; rewrite G; cbn; congruence|reflexivity..|].
    set (rsp := mkmsg _ _ _ _ _ _ _ _ _) in Ob.
    destruct (L_C55_exchange PS wc wd jc jd ac an d (write_request 0x029101 [mkprop 0x80 [v]]) 0x029101 o o1 (o_obs o) rsp x Qc Rc Qd Rd Da Lk) as (x1 & X1 & Lk1 & _ & K1).
    + reflexivity.
    + reflexivity.
    + reflexivity.
    + apply frame_one; [exact Tx|cbn; lia|cbn; lia|unfold byte_ok; cbn; lia|reflexivity| |].
      * split; [cbn; lia|]. repeat constructor; unfold byte_ok; cbn; lia.
      * constructor; [|constructor]. constructor; [exact Bv|constructor].
    + rewrite wire_len. cbn. lia.
    + exact Ob.
    + subst rsp. cbn [m_ESV]. destruct (on_offb v); lia.
    + subst rsp. destruct (on_offb v); (apply frame_one; [exact Tx|cbn; lia|cbn; lia|unfold byte_ok; cbn; lia|reflexivity| |]).
      * split; [cbn; lia|]. repeat constructor; unfold byte_ok; cbn; lia.
      * constructor; [|constructor]. constructor.
      * split; [cbn; lia|]. repeat constructor; unfold byte_ok; cbn; lia.
      * constructor; [|constructor]. constructor; [exact Bv|constructor].
    + subst rsp. rewrite wire_len. destruct (on_offb v); cbn; lia.
    + subst rsp. cbn [m_ESV]. destruct (on_offb v); lia.
    + assert (Sh1 : shining mono_handler (if on_offb v then v else y) o1).
      { split; [exact M1|]. unfold status in S1. specialize (Fr1 0x80). rewrite G in Fr1. destruct (get_property 0x80 o1) as [p1|]; [|discriminate]. injection S1 as S1. exists p1. split; [reflexivity|]. split; [exact S1|].
        assert (Eg : op_get p1 = op_get p) by (destruct p1, p; cbn in Fr1; injection Fr1; intros; subst; reflexivity). unfold can_read. rewrite Eg. exact Cr. }
      assert (O1 : on_off (if on_offb v then v else y)) by (destruct (on_offb v) eqn:Ev; [now apply on_offb_spec|exact Oy]).
      destruct (IH o1 _ x1 Qc Rc Qd Rd Da Lk1 Sh1 O1 Fx) as (x2 & ms & o2 & x3 & m & E2 & Sn & Lk2 & Sh2 & X3 & Rest).
      exists x2, (Some (set_from (Some an) rsp) :: ms), o2, x3, m. cbn [switch_all]. rewrite X1, E2. split; [reflexivity|]. split.
      { cbn [map]. f_equal; [|exact Sn]. subst rsp. cbn. destruct (on_offb v); reflexivity. }
      assert (La : last (filter on_offb (v :: xs)) y = last (filter on_offb xs) (if on_offb v then v else y)).
      { cbn [filter]. destruct (on_offb v); [|reflexivity]. destruct (filter on_offb xs) as [|a l]; [reflexivity|]. change (last (a :: l) y = last (a :: l) v). clear. revert a. induction l as [|b l IHl]; intros a; [reflexivity|]. exact (IHl b). }
      rewrite La. split; [exact Lk2|]. split; [exact Sh2|]. split; [exact X3|]. destruct Rest as (R1 & R2 & R3 & R4 & R5). do 4 (split; [assumption|]).
      intros k Nk. rewrite (R5 k Nk). exact (K1 k Nk).
Qed.
Lemma L_C88_started : forall (PS : PySet) r w tr s s' tr' b, new_mono_node r = (s, Ok true) -> mono_start w tr s = (s', tr', b) ->
  exists o, zget 0x029101 (ln_objs s') = Some o /\ shining mono_handler 0x30 o.
Proof.
  intros PS r w tr s s' tr' b E H. destruct (new_light PS r) as (s0 & o & E0 & G & M & q & Gq & D & Cr).
  assert (s0 = s) by congruence. subst s0. unfold mono_start in H. rewrite (local_start_objs _ _ _ _ _ _ _ H).
  unfold switch. change MONO_CODE with 0x029101. rewrite G. eexists. split; [cbn [put_obj ln_objs ln_node set_ln_node n_objs]; apply zget_zset_same|].
  destruct (mono_set_status 0x30 o M) as ((A & B) & _). split; [split; [exact A|exact B]|]. exists (set_op_data [0x30] q). split; [|split; [reflexivity|exact Cr]].
  unfold get_property. cbn [set_o_props o_props]. change STATUS_ON with 0x30. rewrite set_status_get. cbn [Z.eqb Pos.eqb]. unfold get_property in Gq. rewrite Gq. reflexivity.
Qed.
