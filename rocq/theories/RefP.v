(** Lemmas for C94. *)
From Verif Require Import PyBase BytesM EsvM MsgM PropM ObjM DbM NodeM LocalM TidM SpecWire SpecObj SpecReq SpecNode SpecProf DictP ObjP TidP ReqP ServeM SpecServe ServeP
  ProfP RunM SpecRun RunP RefM SpecRef.
Local Open Scope nat_scope.

(** ** Histories *)
Section Snoc.
Context (h : list obj).
Lemma code_snoc i past x : code_after h i (past ++ [x]) = match x with RCode j c' => if Nat.eqb j i then c' else code_after h i past | _ => code_after h i past end.
Proof. unfold code_after. rewrite fold_left_app. reflexivity. Qed.
Lemma found_from_app n c a b : forall past cur, found_from h n c past (a ++ b) cur = found_from h n c (past ++ a) b (found_from h n c past a cur).
Proof. induction a as [|x a IH]; intros past cur; cbn [app found_from]; [now rewrite app_nil_r|]. rewrite IH, <- app_assoc. reflexivity. Qed.
Lemma found_snoc n c past x : found_after h n c (past ++ [x]) = match x with
  | RAdd n' i => if Nat.eqb n' n && (code_after h i past =? c)%Z then Some i else found_after h n c past | _ => found_after h n c past end.
Proof. unfold found_after. rewrite found_from_app. reflexivity. Qed.
Lemma keys_from_app n a b : forall past cur, keys_from h n past (a ++ b) cur = keys_from h n (past ++ a) b (keys_from h n past a cur).
Proof. induction a as [|x a IH]; intros past cur; cbn [app keys_from]; [now rewrite app_nil_r|]. rewrite IH, <- app_assoc. reflexivity. Qed.
Lemma keys_snoc n past x : keys_after h n (past ++ [x]) = match x with
  | RAdd n' i => if Nat.eqb n' n && negb (existsb (Z.eqb (code_after h i past)) (keys_after h n past)) then keys_after h n past ++ [code_after h i past] else keys_after h n past
  | _ => keys_after h n past end.
Proof. unfold keys_after. rewrite keys_from_app. reflexivity. Qed.
Lemma listed_from_app n a b : forall past cur, listed_from h n past (a ++ b) cur = listed_from h n (past ++ a) b (listed_from h n past a cur).
Proof. induction a as [|x a IH]; intros past cur; cbn [app listed_from]; [now rewrite app_nil_r|]. rewrite IH, <- app_assoc. reflexivity. Qed.
Lemma listed_snoc n past x : listed h n (past ++ [x]) = match x with
  | RAdd n' _ => if Nat.eqb n' n then codes_now h n (past ++ [x]) else listed h n past | _ => listed h n past end.
Proof. unfold listed. rewrite listed_from_app. reflexivity. Qed.
Lemma obj_from_app i a b : forall past o, obj_from h i past (a ++ b) o = obj_from h i (past ++ a) b (obj_from h i past a o).
Proof. induction a as [|x a IH]; intros past o; cbn [app obj_from]; [now rewrite app_nil_r|]. rewrite IH, <- app_assoc. reflexivity. Qed.
Lemma obj_snoc i past x o : obj_from h i [] (past ++ [x]) o = let o := obj_from h i [] past o in match x with
        | RAdd _ _ => o
        | RCode j c => if Nat.eqb j i then set_o_code c o else o
        | RSet j c d => if Nat.eqb j i then fst (set_property_data c d o) else o
        | RAsk n m => match found_after h n (m_DEOJ m) past with Some j => if Nat.eqb j i then fst (fst (obj_message_received o m)) else o | None => o end
        end.
Proof. rewrite obj_from_app. reflexivity. Qed.
End Snoc.

(** ** What a request keeps *)
Lemma goes_code a b : goes a b -> o_code (fst b) = o_code (fst a).
Proof. induction 1 as [|o p x H IH]; [reflexivity|]. rewrite IH. cbn [fst]. exact (pstep_code o p). Qed.
Lemma received_code o m : o_code (fst (fst (obj_message_received o m))) = o_code o.
Proof. exact (goes_code _ _ (goes_all o m)). Qed.
Lemma goes_prof a b : goes a b -> profile_ok (fst a) -> profile_ok (fst b) /\ same_five (fst a) (fst b).
Proof.
  induction 1 as [|o p x H IH]; intros P; [split; [exact P|intros c _; reflexivity]|]. cbn [fst] in *. destruct (pstep_prof o p P) as (P1 & F1).
  destruct (IH P1) as (P2 & F2). split; [exact P2|]. intros c I. rewrite (F2 c I). exact (F1 c I).
Qed.
Lemma received_prof o m : profile_ok o -> profile_ok (fst (fst (obj_message_received o m))) /\ same_five o (fst (fst (obj_message_received o m))).
Proof. exact (goes_prof _ _ (goes_all o m)). Qed.

(** ** The world *)
Section World.
Context {PS : PySet} (profs devs : list obj).
Definition h0 : list obj := profs ++ devs.
Definition P : nat := length profs.
Definition N : nat := length profs + length devs.
Definition node_inv (ops : list rop) (n : nat) (nd : rnode) : Prop :=
  rn_prof nd = n /\ NoDup (dkeys (rn_tab nd)) /\ (forall c, zget c (rn_tab nd) = found_after h0 n c ops) /\ dkeys (rn_tab nd) = keys_after h0 n ops /\
  forall c i, zget c (rn_tab nd) = Some i -> i < N.
Definition winv (ops : list rop) (w : world) : Prop :=
  length (w_heap w) = N /\ length (w_nodes w) = P /\
  (forall n nd, nth_error (w_nodes w) n = Some nd -> node_inv ops n nd) /\
  (forall i, i < N -> o_code (at_ref (w_heap w) i) = code_after h0 i ops) /\
  (forall i, P <= i < N -> at_ref (w_heap w) i = obj_from h0 i [] ops (at_ref h0 i)) /\
  (forall n, n < P -> profile_ok (at_ref (w_heap w) n) /\ shown (listed h0 n ops) (at_ref (w_heap w) n)).
Lemma existsb_key {V} (t : list (Z * V)) c : existsb (Z.eqb c) (dkeys t) = isSome (zget c t).
Proof.
  induction t as [|[k v] t IH]; [reflexivity|]. cbn [dkeys map fst existsb dget]. destruct (Z.eqb c k); [reflexivity|]. exact IH.
Qed.
Lemma tab_codes (t : list (Z * nat)) (f : nat -> Z) : NoDup (dkeys t) ->
  map (fun x => f (snd x)) t = map (fun k => match zget k t with Some i => f i | None => 0%Z end) (dkeys t).
Proof.
  intros D. unfold dkeys. rewrite map_map. apply map_ext_in. intros [k i] I. cbn [fst snd]. now rewrite (in_zget k i t D I).
Qed.
Lemma node_other ops n nd x : (forall i, x <> RAdd n i) -> node_inv ops n nd -> node_inv (ops ++ [x]) n nd.
Proof.
  intros X (E & D & F & K & L). split; [exact E|]. split; [exact D|]. split; [|split; [|exact L]].
  - intros c. rewrite F, found_snoc. destruct x as [n' i| | |]; try reflexivity. destruct (Nat.eqb_spec n' n) as [->|_]; [now destruct (X i)|reflexivity].
  - rewrite K, keys_snoc. destruct x as [n' i| | |]; try reflexivity. destruct (Nat.eqb_spec n' n) as [->|_]; [now destruct (X i)|reflexivity].
Qed.
Lemma winv_start : new_profiles profs -> winv [] (fresh profs devs).
Proof.
  intros NP_. split; [unfold fresh, N; cbn [w_heap]; now rewrite app_length|]. split; [unfold fresh; cbn [w_nodes]; now rewrite map_length, seq_length|].
  assert (PR : forall n, n < P -> profile_ok (at_ref h0 n) /\ shown [0x0EF001%Z] (at_ref h0 n)).
  { intros n L. destruct (nth_error profs n) as [p|] eqn:E; [|apply nth_error_None in E; unfold P in L; lia].
    assert (at_ref h0 n = p) as -> by (apply at_ref_some; unfold h0; rewrite nth_error_app1; [exact E|exact L]).
    destruct (NP_ p (nth_error_In _ _ E)) as (c & r & s & Q & G). destruct (new_local_ok c r) as (s1 & E1 & L1 & K1 & _). assert (s1 = s) by congruence. subst s1.
    destruct L1 as (_ & _ & _ & p' & G' & PO & S). assert (p' = p) by (unfold ProfP.NP in *; congruence). subst p'. split; [exact PO|]. rewrite K1 in S. apply shows_shown. exact S. }
  split; [|split; [|split]].
  - intros n nd E. unfold fresh in E. cbn [w_nodes] in E. rewrite nth_error_map in E. assert (L : n < P) by (destruct (nth_error (seq 0 (length profs)) n) eqn:Q; [|discriminate]; assert (X : nth_error (seq 0 (length profs)) n <> None) by congruence; apply nth_error_Some in X; rewrite seq_length in X; exact X).
    rewrite (nth_error_nth' (seq 0 (length profs)) 0), seq_nth in E by (rewrite ?seq_length; exact L). cbn [option_map Nat.add] in E. assert (nd = mkrn [(0x0EF001%Z, n)] n) by congruence. subst nd. split; [reflexivity|]. cbn [rn_tab].
    split; [cbn; repeat constructor; intros []|]. split; [intros c; unfold found_after; cbn [found_from dget]; destruct (c =? 0x0EF001)%Z; reflexivity|]. split; [reflexivity|].
    intros c i. cbn [dget]. destruct (c =? 0x0EF001)%Z; [|discriminate]. intros Q. assert (i = n) by congruence. subst. unfold N, P in *. lia.
  - intros i L. unfold code_after. cbn [fold_left]. unfold fresh. cbn [w_heap]. unfold at_ref. fold h0. rewrite (nth_error_nth' h0 nobody) by (unfold h0; rewrite app_length; exact L). reflexivity.
  - intros i L. reflexivity.
  - intros n L. exact (PR n L).
Qed.
Lemma code_prof n ops : Forall (proper profs devs) ops -> forall x, proper profs devs x -> n < P -> code_after h0 n (ops ++ [x]) = code_after h0 n ops.
Proof. intros _ x X L. rewrite code_snoc. destruct x as [| j c| |]; try reflexivity. cbn in X. unfold P in L. destruct (Nat.eqb_spec j n); [lia|reflexivity]. Qed.
Ltac uu := unfold P, N in *; lia.
Lemma winv_step ops w x : proper profs devs x -> winv ops w -> winv (ops ++ [x]) (fst (ref_step w x)).
Proof.
  intros X (LH & LN & IN & IC & ID & IP). destruct x as [n i|i c|i c d|n m]; cbn [ref_step proper] in *.
  - destruct X as (Ln & Li). unfold ref_add. destruct (nth_error (w_nodes w) n) as [nd|] eqn:E; [|apply nth_error_None in E; uu].
    destruct (IN n nd E) as (EP & D & F & K & V). fold P N in *. rewrite EP.
    set (tab := zset _ _ _). set (codes := map _ tab). destruct (IP n Ln) as (PO & SH).
    destruct (np_update_ok codes _ PO) as (p' & U & PO' & S' & _). rewrite U. cbn [fst].
    assert (Ei : o_code (at_ref (w_heap w) i) = code_after h0 i ops) by (apply IC; uu).
    assert (D' : NoDup (dkeys tab)) by now apply znodup_zset.
    assert (F' : forall c, zget c tab = found_after h0 n c (ops ++ [RAdd n i])).
    { intros c. rewrite found_snoc, Nat.eqb_refl. cbn [andb]. unfold tab. rewrite Ei, zget_zset, F, Z.eqb_sym. destruct (code_after h0 i ops =? c)%Z; reflexivity. }
    assert (K' : dkeys tab = keys_after h0 n (ops ++ [RAdd n i])).
    { rewrite keys_snoc, Nat.eqb_refl. cbn [andb]. unfold tab. rewrite Ei, zkeys_zset, <- K, existsb_key. destruct (zget _ _); reflexivity. }
    assert (V' : forall c j, zget c tab = Some j -> j < N).
    { intros c j. unfold tab. rewrite zget_zset. destruct (_ =? _)%Z; [intros Q; assert (j = i) by congruence; subst; uu|apply V]. }
    assert (CN : codes = codes_now h0 n (ops ++ [RAdd n i])).
    { unfold codes, codes_now. rewrite (tab_codes tab (fun j => o_code (at_ref (w_heap w) j)) D'), K'. apply map_ext_in. intros k _. rewrite F'. destruct (found_after h0 n k _) as [j|] eqn:Q; [|reflexivity].
      rewrite code_snoc. apply IC. apply (V' k). now rewrite F'. }
    assert (CP : forall j, j < N -> o_code (at_ref (put (w_heap w) n p') j) = o_code (at_ref (w_heap w) j)).
    { intros j Lj. rewrite at_put by (uu). destruct (Nat.eqb_spec j n) as [->|_]; [|reflexivity]. destruct PO' as (_ & _ & _ & C1 & _). destruct PO as (_ & _ & _ & C2 & _). congruence. }
    split; [cbn [w_heap]; now rewrite length_put|]. split; [cbn [w_nodes]; unfold set_at; now rewrite length_put|]. cbn [w_heap w_nodes]. split; [|split; [|split]].
    + intros n' nd' E'. unfold set_at in E'. rewrite nth_put in E'. destruct (Nat.eqb_spec n' n) as [->|NE].
      * rewrite E in E'. assert (nd' = mkrn tab n) by congruence. subst nd'. split; [reflexivity|]. split; [exact D'|]. split; [exact F'|]. split; [exact K'|exact V'].
      * apply node_other; [intros i' Q; congruence|]. now apply IN.
    + intros j Lj. rewrite CP by exact Lj. rewrite code_snoc. now apply IC.
    + intros j Lj. rewrite at_put by (uu). destruct (Nat.eqb_spec j n); [uu|]. rewrite obj_snoc. now apply ID.
    + intros n' Ln'. rewrite at_put by (uu). rewrite listed_snoc. destruct (Nat.eqb_spec n' n) as [->|NE].
      * rewrite Nat.eqb_refl. split; [exact PO'|]. rewrite <- CN. now apply shows_shown.
      * destruct (Nat.eqb_spec n n'); [congruence|]. now apply IP.
  - fold P N in X. cbn [fst]. split; [cbn [w_heap]; now rewrite length_put|]. split; [exact LN|]. cbn [w_heap w_nodes]. split; [|split; [|split]].
    + intros n nd E. apply node_other; [discriminate|now apply IN].
    + intros j Lj. rewrite at_put, code_snoc by uu. rewrite (Nat.eqb_sym i j). destruct (Nat.eqb_spec j i) as [->|_]; [|now apply IC]. destruct (at_ref (w_heap w) i); reflexivity.
    + intros j Lj. rewrite at_put, obj_snoc by uu. rewrite (Nat.eqb_sym i j). destruct (Nat.eqb_spec j i) as [->|_]; [|now apply ID]. cbn zeta. now rewrite <- (ID i X).
    + intros n Ln. rewrite at_put, listed_snoc by uu. destruct (Nat.eqb_spec n i); [uu|]. now apply IP.
  - fold P N in X. destruct (set_property_data c d (at_ref (w_heap w) i)) as [o b] eqn:S. cbn [fst]. assert (So : o = fst (set_property_data c d (at_ref (w_heap w) i))) by now rewrite S.
    split; [cbn [w_heap]; now rewrite length_put|]. split; [exact LN|]. cbn [w_heap w_nodes]. split; [|split; [|split]].
    + intros n nd E. apply node_other; [discriminate|now apply IN].
    + intros j Lj. rewrite at_put, code_snoc by uu. destruct (Nat.eqb_spec j i) as [->|_]; [|now apply IC]. rewrite So, data_code. now apply IC.
    + intros j Lj. rewrite at_put, obj_snoc by uu. rewrite (Nat.eqb_sym i j). destruct (Nat.eqb_spec j i) as [->|_]; [|now apply ID]. cbn zeta. now rewrite <- (ID i X).
    + intros n Ln. rewrite at_put, listed_snoc by uu. destruct (Nat.eqb_spec n i); [uu|]. now apply IP.
  - fold P N in X. unfold ref_ask. destruct (nth_error (w_nodes w) n) as [nd|] eqn:E; [|apply nth_error_None in E; uu]. destruct (IN n nd E) as (EP & D & F & K & V).
    rewrite key_of, F. assert (KEEP : forall j, found_after h0 n (m_DEOJ m) ops <> Some j -> obj_from h0 j [] (ops ++ [RAsk n m]) (at_ref h0 j) = obj_from h0 j [] ops (at_ref h0 j)).
    { intros j Q. rewrite obj_snoc. cbn zeta. destruct (found_after h0 n (m_DEOJ m) ops) as [k|]; [|reflexivity]. destruct (Nat.eqb_spec k j); [congruence|reflexivity]. }
    destruct (found_after h0 n (m_DEOJ m) ops) as [i|] eqn:Q.
    + assert (Li : i < N) by (apply (V (m_DEOJ m)); now rewrite F). destruct (obj_message_received (at_ref (w_heap w) i) m) as [[o told] r] eqn:S. cbn [fst].
      assert (So : o = fst (fst (obj_message_received (at_ref (w_heap w) i) m))) by now rewrite S.
      split; [cbn [w_heap]; now rewrite length_put|]. split; [exact LN|]. cbn [w_heap w_nodes]. split; [|split; [|split]].
      * intros n' nd' E'. apply node_other; [discriminate|now apply IN].
      * intros j Lj. rewrite at_put, code_snoc by uu. destruct (Nat.eqb_spec j i) as [->|_]; [|now apply IC]. rewrite So, received_code. now apply IC.
      * intros j Lj. rewrite at_put by uu. destruct (Nat.eqb_spec j i) as [->|NE]; [|rewrite KEEP by congruence; now apply ID]. rewrite obj_snoc. cbn zeta. rewrite Q, Nat.eqb_refl, So. now rewrite <- (ID i Lj).
      * intros n' Ln'. rewrite at_put, listed_snoc by uu. destruct (Nat.eqb_spec n' i) as [->|NE]; [|now apply IP]. destruct (IP i Ln') as (PO & SH). rewrite So. destruct (received_prof _ m PO) as (PO' & S5). split; [exact PO'|].
        intros c I. rewrite (S5 c I). exact (SH c I).
    + cbn [fst]. split; [exact LH|]. split; [exact LN|]. split; [|split; [|split]].
      * intros n' nd' E'. apply node_other; [discriminate|now apply IN].
      * intros j Lj. rewrite code_snoc. now apply IC.
      * intros j Lj. rewrite KEEP by congruence. now apply ID.
      * intros n' Ln'. rewrite listed_snoc. now apply IP.
Qed.
Lemma winv_run ops : new_profiles profs -> Forall (proper profs devs) ops -> winv ops (ref_run (fresh profs devs) ops).
Proof.
  intros NPr. induction ops as [|x ops IH] using rev_ind; intros A; [now apply winv_start|]. apply Forall_app in A. destruct A as (A & B). apply Forall_inv in B.
  unfold ref_run. rewrite fold_left_app. cbn [fold_left]. apply winv_step; [exact B|]. now apply IH.
Qed.
End World.

(** ** C94 *)
Section Final.
Context {PS : PySet} (profs devs : list obj) (ops : list rop) (NPr : new_profiles profs) (A : Forall (proper profs devs) ops).
Let w := ref_run (fresh profs devs) ops.
Let h := profs ++ devs.
Lemma inv_now : winv profs devs ops w.
Proof. now apply winv_run. Qed.
Lemma heap_at i : i < length profs + length devs -> nth_error (w_heap w) i = Some (at_ref (w_heap w) i).
Proof. intros L. destruct inv_now as (LH & _). apply nth_error_nth'. rewrite LH. exact L. Qed.
Lemma node_now n : n < length profs -> exists nd, nth_error (w_nodes w) n = Some nd /\ node_inv profs devs ops n nd.
Proof.
  intros L. destruct inv_now as (_ & LN & IN & _). destruct (nth_error (w_nodes w) n) as [nd|] eqn:E; [|apply nth_error_None in E; unfold P in LN; lia]. exists nd. split; [reflexivity|now apply IN].
Qed.
End Final.
Lemma L_C94_found : forall (PS : PySet) profs devs ops n, new_profiles profs -> Forall (proper profs devs) ops -> n < length profs ->
  exists nd, nth_error (w_nodes (ref_run (fresh profs devs) ops)) n = Some nd /\ forall c, zget c (rn_tab nd) = found_after (profs ++ devs) n c ops.
Proof. intros PS profs devs ops n NPr A L. destruct (node_now profs devs ops NPr A n L) as (nd & E & (_ & _ & F & _)). exists nd. split; [exact E|exact F]. Qed.
Lemma L_C94_object : forall (PS : PySet) profs devs ops i o, new_profiles profs -> Forall (proper profs devs) ops -> nth_error devs i = Some o ->
  nth_error (w_heap (ref_run (fresh profs devs) ops)) (length profs + i) = Some (obj_from (profs ++ devs) (length profs + i) [] ops o).
Proof.
  intros PS profs devs ops i o NPr A E. assert (L : i < length devs) by (apply nth_error_Some; congruence).
  rewrite (heap_at profs devs ops NPr A) by lia. f_equal. destruct (inv_now profs devs ops NPr A) as (_ & _ & _ & _ & ID & _). rewrite ID by (unfold P, N; lia). unfold h0. f_equal.
  apply at_ref_some. rewrite nth_error_app2 by lia. replace (length profs + i - length profs) with i by lia. exact E.
Qed.
Lemma L_C94_code : forall (PS : PySet) profs devs ops i, new_profiles profs -> Forall (proper profs devs) ops -> i < length profs + length devs ->
  exists o, nth_error (w_heap (ref_run (fresh profs devs) ops)) i = Some o /\ o_code o = code_after (profs ++ devs) i ops.
Proof.
  intros PS profs devs ops i NPr A L. eexists. split; [now apply heap_at|]. destruct (inv_now profs devs ops NPr A) as (_ & _ & _ & IC & _). now apply IC.
Qed.
Lemma L_C94_answer : forall (PS : PySet) profs devs ops n m, new_profiles profs -> Forall (proper profs devs) ops -> n < length profs ->
  let w := ref_run (fresh profs devs) ops in
  match found_after (profs ++ devs) n (m_DEOJ m) ops with
  | None => ref_step w (RAsk n m) = (w, RNone)
  | Some i => exists o, nth_error (w_heap w) i = Some o /\ snd (ref_step w (RAsk n m)) = RAnswer (snd (obj_message_received o m))
  end.
Proof.
  intros PS profs devs ops n m NPr A L w. destruct (node_now profs devs ops NPr A n L) as (nd & E & (_ & _ & F & _ & V)). cbn [ref_step]. unfold ref_ask. fold w in E. rewrite E, key_of, F. unfold h0.
  destruct (found_after (profs ++ devs) n (m_DEOJ m) ops) as [i|] eqn:Q; [|reflexivity]. assert (Li : i < length profs + length devs) by (apply (V (m_DEOJ m)); now rewrite F).
  exists (at_ref (w_heap w) i). split; [now apply heap_at|]. destruct (obj_message_received _ _) as [[o t] r]. reflexivity.
Qed.
Lemma L_C94_added : forall (PS : PySet) profs devs ops n i, new_profiles profs -> Forall (proper profs devs) ops -> n < length profs ->
  snd (ref_step (ref_run (fresh profs devs) ops) (RAdd n i)) = RBool (Ok true).
Proof.
  intros PS profs devs ops n i NPr A L. destruct (node_now profs devs ops NPr A n L) as (nd & E & (EP & _)). cbn [ref_step]. unfold ref_add. rewrite E, EP.
  destruct (inv_now profs devs ops NPr A) as (_ & _ & _ & _ & _ & IP). destruct (IP n L) as (PO & _).
  match goal with |- context [np_update_map ?c ?p] => destruct (np_update_ok c p PO) as (p' & U & _) end. rewrite U. reflexivity.
Qed.
Lemma L_C94_list : forall (PS : PySet) profs devs ops n, new_profiles profs -> Forall (proper profs devs) ops -> n < length profs ->
  exists p, nth_error (w_heap (ref_run (fresh profs devs) ops)) n = Some p /\
    forall code, In code five -> get_property_data code p = Some (says code (listed (profs ++ devs) n ops)).
Proof.
  intros PS profs devs ops n NPr A L. eexists. split; [apply (heap_at profs devs ops NPr A); lia|]. destruct (inv_now profs devs ops NPr A) as (_ & _ & _ & _ & _ & IP). destruct (IP n L) as (_ & S). exact S.
Qed.
Lemma found_in h n c ops i : found_after h n c ops = Some i -> In (RAdd n i) ops \/ (c = 0x0EF001%Z /\ i = n).
Proof.
  induction ops as [|x ops IH] using rev_ind.
  - unfold found_after. cbn [found_from]. destruct (Z.eqb_spec c 0x0EF001); [|discriminate]. intros Q. right. split; congruence.
  - rewrite found_snoc. destruct x as [n' j| | |]; try (intros Q; destruct (IH Q); [left; apply in_or_app; now left|now right]).
    destruct (Nat.eqb_spec n' n) as [->|_]; cbn [andb]; [destruct (_ =? c)%Z|]; try (intros Q; destruct (IH Q); [left; apply in_or_app; now left|now right]).
    intros Q. assert (j = i) by congruence. subst. left. apply in_or_app. right. now left.
Qed.
Lemma settled_pre ops x : settled (ops ++ [x]) -> settled ops.
Proof.
  intros H k i c E n I. assert (L : k < length ops) by (apply nth_error_Some; congruence). apply (H k i c) with (n := n).
  - rewrite nth_error_app1 by exact L. exact E.
  - rewrite firstn_app. replace (k - length ops) with 0 by lia. cbn [firstn]. rewrite app_nil_r. exact I.
Qed.
Lemma settled_code {PS : PySet} profs devs ops n c i : new_profiles profs -> Forall (proper profs devs) ops -> settled ops -> n < length profs ->
  found_after (profs ++ devs) n c ops = Some i -> code_after (profs ++ devs) i ops = c.
Proof.
  intros NPr. induction ops as [|x ops IH] using rev_ind; intros A S L F.
  - unfold found_after in F. cbn [found_from] in F. destruct (Z.eqb_spec c 0x0EF001) as [->|]; [|discriminate]. assert (i = n) by congruence. subst i.
    destruct (winv_start profs devs NPr) as (_ & _ & _ & IC & _ & IP). change (profs ++ devs) with (h0 profs devs). rewrite <- (IC n) by (unfold N; lia). destruct (IP n L) as ((_ & _ & _ & C & _) & _). exact C.
  - apply Forall_app in A. destruct A as (A & X). apply Forall_inv in X. rewrite code_snoc. rewrite found_snoc in F. specialize (IH A (settled_pre _ _ S) L). destruct x as [n' j|j c'| |]; [| |now apply IH|now apply IH].
    + destruct (Nat.eqb_spec n' n) as [->|_]; cbn [andb] in F; [|now apply IH]. destruct (Z.eqb_spec (code_after (profs ++ devs) j ops) c) as [E|_]; [|now apply IH]. assert (j = i) by congruence. now subst.
    + destruct (Nat.eqb_spec j i) as [->|_]; [|now apply IH]. exfalso. destruct (found_in _ _ _ _ _ F) as [I|(_ & ->)]; [|cbn in X; lia].
      apply (S (length ops) i c') with (n := n); [rewrite nth_error_app2, Nat.sub_diag by lia; reflexivity|]. rewrite firstn_app, Nat.sub_diag, firstn_all. cbn [firstn]. rewrite app_nil_r. exact I.
Qed.
Lemma settled_now {PS : PySet} profs devs ops n : new_profiles profs -> Forall (proper profs devs) ops -> settled ops -> n < length profs ->
  codes_now (profs ++ devs) n ops = keys_after (profs ++ devs) n ops.
Proof.
  intros NPr A S L. unfold codes_now. rewrite <- (map_id (keys_after _ _ _)) at 2. apply map_ext_in. intros c I.
  destruct (node_now profs devs ops NPr A n L) as (nd & _ & (_ & _ & F & K & _)). unfold h0 in *. rewrite <- K in I. apply zget_some in I. destruct I as (i & I). rewrite F in I. rewrite I. exact (settled_code _ _ _ _ _ _ NPr A S L I).
Qed.
Lemma L_C94_settled_partial : forall (PS : PySet) profs devs ops n, new_profiles profs -> Forall (proper profs devs) ops -> settled ops -> n < length profs ->
  listed (profs ++ devs) n ops = keys_after (profs ++ devs) n ops /\ NoDup (keys_after (profs ++ devs) n ops) /\
  forall c, (exists i, found_after (profs ++ devs) n c ops = Some i) <-> In c (keys_after (profs ++ devs) n ops).
Proof.
  intros PS profs devs ops n NPr A S L. split.
  - revert A S. induction ops as [|x ops IH] using rev_ind; intros A S; [reflexivity|]. rewrite listed_snoc. pose proof (settled_now profs devs (ops ++ [x]) n NPr A S L) as Q.
    apply Forall_app in A. destruct A as (A & _). specialize (IH A (settled_pre _ _ S)). destruct x as [n' i| | |]; try (rewrite keys_snoc; exact IH).
    destruct (Nat.eqb_spec n' n) as [->|NE]; [exact Q|]. rewrite keys_snoc. destruct (Nat.eqb_spec n' n); [congruence|]. exact IH.
  - destruct (node_now profs devs ops NPr A n L) as (nd & _ & (_ & D & F & K & _)). unfold h0 in *. rewrite <- K. split; [exact D|]. intros c. rewrite zget_some. split; intros (i & I); exists i; [now rewrite F|now rewrite <- F].
Qed.
Lemma L_C94_own_partial : forall (PS : PySet) profs devs ops n c i, new_profiles profs -> Forall (proper profs devs) ops -> settled ops -> n < length profs ->
  found_after (profs ++ devs) n c ops = Some i -> code_after (profs ++ devs) i ops = c.
Proof. intros. now apply (settled_code profs devs ops n c i). Qed.
Section Refuted.
Context {PS : PySet} (profs devs : list obj) (n i : nat) (oi : obj) (c : Z).
Context (NPr : new_profiles profs) (L : n < length profs) (Li : length profs <= i < length profs + length devs)
  (Ei : nth_error (profs ++ devs) i = Some oi).
Let h := profs ++ devs.
Lemma prof_code ops : Forall (proper profs devs) ops -> code_after h n ops = 0x0EF001%Z.
Proof.
  intros A. unfold h. change (profs ++ devs) with (h0 profs devs). destruct (inv_now profs devs ops NPr A) as (_ & _ & _ & IC & _ & IP). rewrite <- (IC n) by (unfold N; lia). destruct (IP n L) as ((_ & _ & _ & C & _) & _). exact C.
Qed.
Lemma code0 : code_after h i [] = o_code oi.
Proof. unfold code_after, h. cbn [fold_left]. now rewrite Ei. Qed.
Section Renamed.
Context (j : nat) (oj : obj) (Lj : length profs <= j < length profs + length devs) (IJ : i <> j) (Ej : nth_error (profs ++ devs) j = Some oj)
  (D : NoDup [0x0EF001%Z; o_code oi; o_code oj; c]).
Let ops := [RAdd n i; RCode i c; RAdd n j].
Lemma renamed_proper : Forall (proper profs devs) ops.
Proof. unfold ops. apply Forall_cons; [exact (conj L Li)|]. apply Forall_cons; [exact Li|]. apply Forall_cons; [exact (conj L Lj)|]. apply Forall_nil. Qed.
Lemma code2 : code_after h j [RAdd n i; RCode i c] = o_code oj.
Proof. unfold code_after, h. cbn [fold_left]. destruct (Nat.eqb_spec i j); [congruence|]. now rewrite Ej. Qed.
Lemma renamed_found k : found_after h n k ops =
  if (o_code oj =? k)%Z then Some j else if (o_code oi =? k)%Z then Some i else if (k =? 0x0EF001)%Z then Some n else None.
Proof. unfold found_after, ops. cbn [found_from app]. rewrite Nat.eqb_refl, code0, code2. cbn [andb]. reflexivity. Qed.
Lemma renamed_keys : keys_after h n ops = [0x0EF001%Z; o_code oi; o_code oj].
Proof.
  pose proof D as D0. inversion_clear D0 as [|? ? N1 D1]. inversion_clear D1 as [|? ? N2 D2]. inversion_clear D2 as [|? ? N3 D3]. cbn [In] in *.
  unfold keys_after, ops. cbn [keys_from app]. rewrite Nat.eqb_refl, code0, code2. cbn [existsb andb]. rewrite !orb_false_r.
  destruct (Z.eqb_spec (o_code oi) 0x0EF001); [intuition congruence|]. cbn [negb app existsb]. rewrite orb_false_r.
  destruct (Z.eqb_spec (o_code oj) 0x0EF001); [intuition congruence|]. destruct (Z.eqb_spec (o_code oj) (o_code oi)); [intuition congruence|]. reflexivity.
Qed.
Lemma renamed_listed : listed h n ops = [0x0EF001%Z; c; o_code oj].
Proof.
  pose proof D as D0. inversion_clear D0 as [|? ? N1 D1]. inversion_clear D1 as [|? ? N2 D2]. inversion_clear D2 as [|? ? N3 D3]. cbn [In] in *.
  change ops with ([RAdd n i; RCode i c] ++ [RAdd n j]). rewrite listed_snoc, Nat.eqb_refl. cbn [app]. fold ops. unfold codes_now. rewrite renamed_keys. cbn [map]. rewrite !renamed_found, !Z.eqb_refl.
  destruct (Z.eqb_spec (o_code oj) 0x0EF001); [intuition congruence|]. destruct (Z.eqb_spec (o_code oi) 0x0EF001); [intuition congruence|].
  destruct (Z.eqb_spec (o_code oj) (o_code oi)); [intuition congruence|]. rewrite (prof_code ops renamed_proper). f_equal. f_equal; [|f_equal].
  - unfold code_after, ops. cbn [fold_left]. now rewrite Nat.eqb_refl.
  - change ops with ([RAdd n i; RCode i c] ++ [RAdd n j]). rewrite code_snoc. exact code2.
Qed.
End Renamed.
Section Twice.
Context (D : NoDup [0x0EF001%Z; o_code oi; c]).
Let ops := [RAdd n i; RCode i c; RAdd n i].
Lemma twice_proper : Forall (proper profs devs) ops.
Proof. unfold ops. apply Forall_cons; [exact (conj L Li)|]. apply Forall_cons; [exact Li|]. apply Forall_cons; [exact (conj L Li)|]. apply Forall_nil. Qed.
Lemma code1 : code_after h i [RAdd n i; RCode i c] = c.
Proof. unfold code_after. cbn [fold_left]. now rewrite Nat.eqb_refl. Qed.
Lemma twice_found k : found_after h n k ops =
  if (c =? k)%Z then Some i else if (o_code oi =? k)%Z then Some i else if (k =? 0x0EF001)%Z then Some n else None.
Proof. unfold found_after, ops. cbn [found_from app]. rewrite Nat.eqb_refl, code0, code1. cbn [andb]. reflexivity. Qed.
Lemma twice_keys : keys_after h n ops = [0x0EF001%Z; o_code oi; c].
Proof.
  pose proof D as D0. inversion_clear D0 as [|? ? N1 D1]. inversion_clear D1 as [|? ? N2 D2]. cbn [In] in *.
  unfold keys_after, ops. cbn [keys_from app]. rewrite Nat.eqb_refl, code0, code1. cbn [existsb andb]. rewrite !orb_false_r.
  destruct (Z.eqb_spec (o_code oi) 0x0EF001); [intuition congruence|]. cbn [negb app existsb]. rewrite orb_false_r.
  destruct (Z.eqb_spec c 0x0EF001); [intuition congruence|]. destruct (Z.eqb_spec c (o_code oi)); [intuition congruence|]. reflexivity.
Qed.
Lemma twice_listed : listed h n ops = [0x0EF001%Z; c; c].
Proof.
  pose proof D as D0. inversion_clear D0 as [|? ? N1 D1]. inversion_clear D1 as [|? ? N2 D2]. cbn [In] in *.
  change ops with ([RAdd n i; RCode i c] ++ [RAdd n i]). rewrite listed_snoc, Nat.eqb_refl. cbn [app]. fold ops. unfold codes_now. rewrite twice_keys. cbn [map]. rewrite !twice_found, !Z.eqb_refl.
  destruct (Z.eqb_spec c 0x0EF001); [intuition congruence|]. destruct (Z.eqb_spec (o_code oi) 0x0EF001); [intuition congruence|].
  destruct (Z.eqb_spec c (o_code oi)); [intuition congruence|]. rewrite (prof_code ops twice_proper).
  assert (C : code_after h i ops = c) by (change ops with ([RAdd n i; RCode i c] ++ [RAdd n i]); rewrite code_snoc; exact code1). rewrite C. reflexivity.
Qed.
End Twice.
End Refuted.
Lemma L_C94_renamed_refuted : forall (PS : PySet) profs devs n i j oi oj c, new_profiles profs -> n < length profs ->
  length profs <= i < length profs + length devs -> length profs <= j < length profs + length devs -> i <> j ->
  nth_error (profs ++ devs) i = Some oi -> nth_error (profs ++ devs) j = Some oj -> NoDup [0x0EF001%Z; o_code oi; o_code oj; c] ->
  let w := ref_run (fresh profs devs) [RAdd n i; RCode i c; RAdd n j] in
  (exists p, nth_error (w_heap w) n = Some p /\ get_property_data 0xD6 p = Some (says 0xD6 [0x0EF001%Z; c; o_code oj])) /\
  (forall m, m_DEOJ m = c -> ref_step w (RAsk n m) = (w, RNone)) /\
  (forall m, m_DEOJ m = o_code oi -> exists o, nth_error (w_heap w) i = Some o /\ o_code o = c /\ snd (ref_step w (RAsk n m)) = RAnswer (snd (obj_message_received o m))).
Proof.
  intros PS profs devs n i j oi oj c NPr L Li Lj IJ Ei Ej D w. pose proof (renamed_proper profs devs n i c L Li j Lj) as A.
  pose proof (renamed_found profs devs n i oi c Ei j oj IJ Ej) as F. pose proof D as D0. inversion_clear D0 as [|? ? N1 D1]. inversion_clear D1 as [|? ? N2 D2]. inversion_clear D2 as [|? ? N3 D3]. cbn [In] in *.
  split; [|split].
  - destruct (L_C94_list PS profs devs _ n NPr A L) as (p & E & S). exists p. split; [exact E|]. rewrite S by (cbn [five In]; auto).
    rewrite (renamed_listed profs devs n i oi c NPr L Li Ei j oj Lj IJ Ej D). reflexivity.
  - intros m <-. pose proof (L_C94_answer PS profs devs _ n m NPr A L) as Q. cbn zeta in Q. rewrite F in Q.
    destruct (Z.eqb_spec (o_code oj) (m_DEOJ m)); [intuition congruence|]. destruct (Z.eqb_spec (o_code oi) (m_DEOJ m)); [intuition congruence|].
    destruct (Z.eqb_spec (m_DEOJ m) 0x0EF001); [intuition congruence|]. exact Q.
  - intros m E. pose proof (L_C94_answer PS profs devs _ n m NPr A L) as Q. cbn zeta in Q. rewrite F, E in Q. destruct (Z.eqb_spec (o_code oj) (o_code oi)); [intuition congruence|]. rewrite Z.eqb_refl in Q.
    destruct Q as (o & Q1 & Q2). exists o. split; [exact Q1|]. split; [|exact Q2]. destruct (L_C94_code PS profs devs _ i NPr A) as (o' & O1 & O2); [lia|]. assert (o' = o) by congruence. subst o'. rewrite O2.
    unfold code_after. cbn [fold_left]. now rewrite Nat.eqb_refl.
Qed.
Lemma L_C94_twice_refuted : forall (PS : PySet) profs devs n i oi c, new_profiles profs -> n < length profs ->
  length profs <= i < length profs + length devs -> nth_error (profs ++ devs) i = Some oi -> NoDup [0x0EF001%Z; o_code oi; c] ->
  let w := ref_run (fresh profs devs) [RAdd n i; RCode i c; RAdd n i] in
  (exists p, nth_error (w_heap w) n = Some p /\ get_property_data 0xD3 p = Some (says 0xD3 [0x0EF001%Z; c; c]) /\ get_property_data 0xD6 p = Some (says 0xD6 [0x0EF001%Z; c; c])) /\
  (forall m, m_DEOJ m = c \/ m_DEOJ m = o_code oi -> exists o, nth_error (w_heap w) i = Some o /\ snd (ref_step w (RAsk n m)) = RAnswer (snd (obj_message_received o m))).
Proof.
  intros PS profs devs n i oi c NPr L Li Ei D w. pose proof (twice_proper profs devs n i c L Li) as A.
  pose proof (twice_found profs devs n i oi c Ei) as F. split.
  - destruct (L_C94_list PS profs devs _ n NPr A L) as (p & E & S). exists p. split; [exact E|]. rewrite !S by (cbn [five In]; auto).
    rewrite (twice_listed profs devs n i oi c NPr L Li Ei D). split; reflexivity.
  - intros m E. pose proof (L_C94_answer PS profs devs _ n m NPr A L) as Q. cbn zeta in Q. rewrite F in Q.
    destruct (Z.eqb_spec c (m_DEOJ m)); [exact Q|]. destruct (Z.eqb_spec (o_code oi) (m_DEOJ m)); [exact Q|]. intuition congruence.
Qed.
