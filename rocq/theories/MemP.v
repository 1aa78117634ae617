(** Lemmas for C105. *)
From Verif Require Import PyBase BytesM EsvM MsgM PropM ObjM DbData DbM NodeM LocalM CtrlM
  SpecWire SpecObj SpecReq SpecDb SpecNode SpecProf SpecLocal SpecSrv SpecCtrl SpecMem DictP BytesP WireP CodecP ObjP MapP ReqP DbP NodeP ProfP LocalP AnswerP SrvP CtrlP.

Lemma tells_profile m : tells m = from_profile m && (m_DEOJ m =? 0x0EF001) && negb (empty_list m).
Proof. reflexivity. Qed.
Lemma announces_tells m codes : announces m = Some codes -> tells m = true.
Proof. intros A. destruct (announces_profile m codes A) as (B & C & D). rewrite tells_profile, B, C, D. reflexivity. Qed.

(** One message that is no request: the node under the sender's address. *)
Lemma mem_step (PS : PySet) w tr c a m c' tr' r : quiet w -> received_from a m -> is_request (m_ESV m) = false ->
  ctl_response w tr c m = (c', tr', r) ->
  (forall k, k <> fst a -> sget k (c_found c') = sget k (c_found c)) /\
  sget (fst a) (c_found c') =
    match (match announces m with Some codes => Some (found_node a codes) | None => sget (fst a) (c_found c) end) with
    | Some n => Some (if tells m then rec_node m n else n)
    | None => None
    end.
Proof.
  intros Q Hm NR E. destruct (found_step PS w tr c a m c' tr' r Q Hm NR E) as (_ & _ & O & _). split; [exact O|].
  rewrite (ctl_response_eq w tr c a m Q Hm NR) in E. rewrite tells_profile.
  destruct (from_profile m && negb (m_DEOJ m =? 0x0EF001)) eqn:X1.
  { assert (AN : announces m = None). { destruct (announces m) eqn:A; [|reflexivity]. apply announces_profile in A. destruct A as (A & B & _). rewrite A, B in X1. discriminate. }
    rewrite AN. assert (c' = c) as -> by congruence. apply andb_prop in X1. destruct X1 as (-> & X). destruct (m_DEOJ m =? 0x0EF001); [discriminate X|]. cbn [andb]. destruct (sget (fst a) (c_found c)); reflexivity. }
  destruct (from_profile m && empty_list m) eqn:X2.
  { assert (AN : announces m = None). { destruct (announces m) eqn:A; [|reflexivity]. apply announces_profile in A. destruct A as (A & _ & B). rewrite A, B in X2. discriminate. }
    rewrite AN. assert (c' = c) as -> by congruence. apply andb_prop in X2. destruct X2 as (_ & ->). cbn [negb]. rewrite andb_false_r. destruct (sget (fst a) (c_found c)); reflexivity. }
  cbv zeta in E.
  assert (B : sget (fst a) (c_found (announce_found a m c)) = match announces m with Some codes => Some (found_node a codes) | None => sget (fst a) (c_found c) end).
  { unfold announce_found. destruct (announces m) as [codes|]; [|reflexivity]. cbn [set_found c_found]. rewrite (dget_dset String.eqb seqb_eq), String.eqb_refl. reflexivity. }
  rewrite <- B. set (c1 := announce_found a m c) in *.
  destruct (from_profile m) eqn:FP; cbn [andb orb negb] in *.
  - destruct (m_DEOJ m =? 0x0EF001); [|discriminate X1]. rewrite X2. cbn [andb negb].
    destruct (sget (fst a) (c_found c1)) as [n|] eqn:G.
    + assert (c' = post_step m (set_found (sset (fst a) (rec_node m n) (c_found c1)) c1)) as -> by congruence. rewrite post_found. cbn [set_found c_found]. rewrite (dget_dset String.eqb seqb_eq), String.eqb_refl. reflexivity.
    + assert (c' = c1) as -> by congruence. exact G.
  - destruct (Z.eqb_spec (m_ESV m) 0x7E) as [E7|_].
    + destruct (sget (fst a) (c_found c1)) as [n|] eqn:G.
      * assert (c' = post_step m (set_found (sset (fst a) (rec_node m n) (c_found c1)) c1)) as -> by congruence. rewrite post_found. cbn [set_found c_found]. rewrite (dget_dset String.eqb seqb_eq), String.eqb_refl.
        f_equal. apply rec_node_keeps. exact (frame_7E a m Hm E7).
      * assert (c' = c1) as -> by congruence. exact G.
    + assert (c' = post_step m c1) as -> by congruence. rewrite post_found. destruct (sget (fst a) (c_found c1)); reflexivity.
Qed.

(** What is known of a node. *)
Definition knows {PS : PySet} (st : option (list prop)) (on : option node) : Prop :=
  match st, on with
  | None, None => True
  | Some l, Some n => forall k o, zget k (n_objs n) = Some o -> as_told (std_obj k) (if k =? 0x0EF001 then l else []) o
  | _, _ => False
  end.
Lemma last_app c l1 l2 : last_data c (l1 ++ l2) = match last_data c l2 with Some d => Some d | None => last_data c l1 end.
Proof.
  induction l1 as [|p l1 IH]; cbn [app last_data]; [destruct (last_data c l2); reflexivity|]. rewrite IH. destruct (last_data c l2); [reflexivity|]. reflexivity.
Qed.
Lemma told_records fresh l ps o o' : as_told fresh l o -> records ps o o' -> as_told fresh (l ++ ps) o'.
Proof.
  intros A (_ & _ & R) c. rewrite R, A, last_app. destruct (get_property c fresh) as [q|]; [|reflexivity].
  destruct (last_data c ps) as [d|]; [|reflexivity]. destruct (last_data c l) as [d0|]; reflexivity.
Qed.
Lemma told_fresh fresh : as_told fresh [] fresh.
Proof. intros c. destruct (get_property c fresh); reflexivity. Qed.
Lemma rec_knows {PS : PySet} l m n : m_DEOJ m = 0x0EF001 -> knows (Some l) (Some n) -> knows (Some (l ++ m_props m)) (Some (rec_node m n)).
Proof.
  intros D K k o G. destruct (rec_node_keeps m n) as (_ & _ & R3 & R4 & R5 & _). rewrite D in *. destruct (Z.eqb_spec k 0x0EF001) as [->|N].
  - destruct (zget 0x0EF001 (n_objs n)) as [o0|] eqn:Z0.
    + destruct (R4 o0 eq_refl) as (o1 & G1 & Rc). assert (o1 = o) by congruence. subst o1. pose proof (K _ _ Z0) as A. rewrite Z.eqb_refl in A. exact (told_records _ _ _ _ _ A Rc).
    + rewrite (R5 eq_refl) in G. congruence.
  - rewrite R3 in G by exact N. pose proof (K _ _ G) as A. apply Z.eqb_neq in N. rewrite N in A. exact A.
Qed.
Lemma found_knows (PS : PySet) a codes : knows (Some []) (Some (found_node a codes)).
Proof.
  intros k o G. destruct (found_node_spec a codes) as (_ & _ & _ & S & _). pose proof (S k o G) as E. rewrite (proj1 (std_obj_ok k)) in E.
  assert (std_obj k = o) as <- by congruence. destruct (k =? 0x0EF001); apply told_fresh.
Qed.

Lemma mem_history (PS : PySet) w ms : quiet w -> Forall (fun m => exists a, received_from a m) ms ->
  forall tr s c s' tr' rs st, ln_ctl s = Some c -> received_all w tr s ms = (s', tr', rs) ->
  (forall ip, knows (st ip) (sget ip (c_found c))) ->
  exists c', ln_ctl s' = Some c' /\ forall ip, knows (fold_left (hears ip) ms (st ip)) (sget ip (c_found c')).
Proof.
  intros Q. induction ms as [|m ms IH]; intros F tr s c s' tr' rs st C; cbn [received_all].
  - intros E K. assert (s' = s) as -> by congruence. exists c. split; [exact C|exact K].
  - destruct (node_received w tr s m) as [[s1 tr1] r1] eqn:E. destruct (received_all w tr1 s1 ms) as [[s2 tr2] rs2] eqn:R. intros X K. assert (s' = s2) as -> by congruence. clear X.
    pose proof (Forall_inv F) as (a & Hm). pose proof (ctl_node_received PS w tr s c a m s1 tr1 r1 C Hm E) as S.
    assert (Fr : from_ip m = fst a) by (unfold from_ip; destruct (received_copy a m Hm) as (_ & ->); reflexivity).
    destruct (is_request (m_ESV m)) eqn:NR.
    + assert (TN : tells m = false).
      { rewrite tells_profile. destruct (from_profile m) eqn:FP; [|reflexivity]. apply from_profile_iff in FP. destruct FP as [H|H]; rewrite H in NR; discriminate. }
      assert (AN : announces m = None) by (destruct (announces m) eqn:A; [rewrite (announces_tells _ _ A) in TN; discriminate|reflexivity]).
      destruct (IH (Forall_inv_tail F) _ _ _ _ _ _ (fun ip => hears ip (st ip) m) S R) as (c' & C' & T).
      * intros ip. unfold hears. rewrite AN, TN. destruct (String.eqb (from_ip m) ip); apply K.
      * exists c'. split; [exact C'|exact T].
    + destruct S as (c1 & E1 & ->). destruct (mem_step PS w tr c a m c1 tr1 r1 Q Hm NR E1) as (O1 & N1).
      destruct (IH (Forall_inv_tail F) tr1 (set_ln_ctl (Some c1) s) c1 s2 tr2 rs2 (fun ip => hears ip (st ip) m) eq_refl R) as (c' & C' & T); [|exists c'; split; [exact C'|exact T]].
      intros ip. unfold hears. rewrite Fr. destruct (String.eqb_spec (fst a) ip) as [<-|N].
      * rewrite N1. destruct (announces m) as [codes|] eqn:AN.
        -- rewrite (announces_tells _ _ AN). apply (rec_knows []); [apply (announces_profile m codes AN)|apply found_knows].
        -- specialize (K (fst a)). destruct (st (fst a)) as [l|], (sget (fst a) (c_found c)) as [n|]; cbn [knows] in K; try contradiction; [|destruct (tells m); exact Logic.I].
           destruct (tells m) eqn:TM; [|exact K]. cbn [option_map]. apply rec_knows; [|exact K]. rewrite tells_profile in TM. apply andb_prop in TM. destruct TM as (TM & _). apply andb_prop in TM. apply Z.eqb_eq, TM.
      * rewrite O1 by congruence. apply K.
Qed.

Lemma L_C105_record : forall (PS : PySet) w tr s c ms s' tr' rs, quiet w -> ln_ctl s = Some c -> c_found c = [] ->
  Forall (fun m => exists a, received_from a m) ms -> received_all w tr s ms = (s', tr', rs) ->
  exists c', ln_ctl s' = Some c' /\
  forall w1 t ip, match heard ip ms with
    | None => get_node w1 t c' (GATup ip) = Ok None
    | Some l => exists n, get_node w1 t c' (GATup ip) = Ok (Some n) /\
        forall k o, get_object (PInt k) n = Some o -> as_told (fst (new_standard (PInt k))) (if k =? 0x0EF001 then l else []) o
    end.
Proof.
  intros PS w tr s c ms s' tr' rs Q C E F R. destruct (mem_history PS w ms Q F tr s c s' tr' rs (fun _ => None) C R) as (c' & C' & K).
  { intros ip. rewrite E. exact Logic.I. }
  exists c'. split; [exact C'|]. intros w1 t ip. specialize (K ip). unfold heard. rewrite get_node_tup.
  destruct (fold_left (hears ip) ms None) as [l|], (sget ip (c_found c')) as [n|]; cbn [knows] in K; try contradiction; [|reflexivity].
  exists n. split; [reflexivity|]. intros k o G. rewrite (proj1 (std_obj_ok k)). cbn [fst]. exact (K k o G).
Qed.
Lemma hears_later ip ms : Forall (fun m => from_ip m = ip -> announces m = None) ms ->
  forall l, fold_left (hears ip) ms (Some l) = Some (l ++ told_by ip ms).
Proof.
  unfold told_by. induction ms as [|m ms IH]; intros F l; cbn [fold_left filter flat_map]; [rewrite app_nil_r; reflexivity|].
  pose proof (Forall_inv F) as A. unfold hears at 2. destruct (String.eqb_spec (from_ip m) ip) as [E|N]; cbn [andb].
  - rewrite (A E). destruct (tells m); cbn [option_map flat_map]; rewrite IH by exact (Forall_inv_tail F); [rewrite <- app_assoc|]; reflexivity.
  - apply IH, (Forall_inv_tail F).
Qed.
Lemma heard_after ip ms1 m0 codes ms2 : from_ip m0 = ip -> announces m0 = Some codes ->
  Forall (fun m => from_ip m = ip -> announces m = None) ms2 ->
  heard ip (ms1 ++ m0 :: ms2) = Some (told_by ip (m0 :: ms2)).
Proof.
  intros E A F. unfold heard. rewrite fold_left_app. cbn [fold_left]. unfold hears at 2. rewrite A, E, String.eqb_refl, (hears_later ip ms2 F).
  unfold told_by. cbn [filter]. rewrite E, String.eqb_refl, (announces_tells _ _ A). reflexivity.
Qed.

Lemma L_C105_remembers_partial : forall (PS : PySet) w tr s c ms1 m0 codes ms2 ip s' tr' rs, quiet w -> ln_ctl s = Some c -> c_found c = [] ->
  Forall (fun m => exists a, received_from a m) (ms1 ++ m0 :: ms2) -> received_all w tr s (ms1 ++ m0 :: ms2) = (s', tr', rs) ->
  from_ip m0 = ip -> announces m0 = Some codes -> Forall (fun m => from_ip m = ip -> announces m = None) ms2 ->
  exists c', ln_ctl s' = Some c' /\ forall w1 t, exists n, get_node w1 t c' (GATup ip) = Ok (Some n) /\
  forall o, get_object (PInt 0x0EF001) n = Some o -> as_told (fst (new_standard (PInt 0x0EF001))) (told_by ip (m0 :: ms2)) o.
Proof.
  intros PS w tr s c ms1 m0 codes ms2 ip s' tr' rs Q C E F R Hi A N.
  destruct (L_C105_record PS w tr s c _ s' tr' rs Q C E F R) as (c' & C' & K). exists c'. split; [exact C'|]. intros w1 t. specialize (K w1 t ip).
  rewrite (heard_after ip ms1 m0 codes ms2 Hi A N) in K. destruct K as (n & G & K). exists n. split; [exact G|]. intros o Go. exact (K 0x0EF001 o Go).
Qed.
Lemma L_C105_forgets_refuted : forall (PS : PySet) w tr s c ms m codes s' tr' rs, quiet w -> ln_ctl s = Some c -> c_found c = [] ->
  Forall (fun m => exists a, received_from a m) (ms ++ [m]) -> received_all w tr s (ms ++ [m]) = (s', tr', rs) -> announces m = Some codes ->
  exists c', ln_ctl s' = Some c' /\ forall w1 t, exists n, get_node w1 t c' (GATup (from_ip m)) = Ok (Some n) /\
  forall o p, get_object (PInt 0x0EF001) n = Some o -> last_data p (m_props m) = None ->
  get_property p o = get_property p (fst (new_standard (PInt 0x0EF001))).
Proof.
  intros PS w tr s c ms m codes s' tr' rs Q C E F R A.
  destruct (L_C105_remembers_partial PS w tr s c ms m codes [] (from_ip m) s' tr' rs Q C E F R eq_refl A (Forall_nil _)) as (c' & C' & K).
  exists c'. split; [exact C'|]. intros w1 t. destruct (K w1 t) as (n & G & K'). exists n. split; [exact G|]. intros o p Go L. specialize (K' o Go p).
  unfold told_by in K'. cbn [filter] in K'. rewrite String.eqb_refl, (announces_tells _ _ A) in K'. cbn [andb flat_map] in K'. rewrite app_nil_r, L in K'.
  rewrite K'. destruct (get_property p (fst (new_standard (PInt 0x0EF001)))); reflexivity.
Qed.
Lemma L_C105_devices_refuted : forall (PS : PySet) w tr s c ms s' tr' rs, quiet w -> ln_ctl s = Some c -> c_found c = [] ->
  Forall (fun m => exists a, received_from a m) ms -> received_all w tr s ms = (s', tr', rs) ->
  exists c', ln_ctl s' = Some c' /\ forall w1 t ip n k o p, get_node w1 t c' (GATup ip) = Ok (Some n) ->
  get_object (PInt k) n = Some o -> k <> 0x0EF001 -> get_property p o = get_property p (fst (new_standard (PInt k))).
Proof.
  intros PS w tr s c ms s' tr' rs Q C E F R. destruct (L_C105_record PS w tr s c ms s' tr' rs Q C E F R) as (c' & C' & K).
  exists c'. split; [exact C'|]. intros w1 t ip n k o p G Go N. specialize (K w1 t ip). destruct (heard ip ms) as [l|]; [|rewrite K in G; discriminate].
  destruct K as (n' & G' & K). assert (n' = n) as -> by congruence. specialize (K k o Go p). apply Z.eqb_neq in N. rewrite N in K. rewrite K.
  cbn [last_data]. destruct (get_property p (fst (new_standard (PInt k)))); reflexivity.
Qed.
