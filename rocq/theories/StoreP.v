(** Lemmas for C92. *)
From Verif Require Import PyBase BytesM EsvM MsgM PropM ObjM DbM DictP TidM SpecWire SpecObj SpecReq NodeM LocalM ObjP ReqP
  TidP ServeM SpecServe ServeP RunM SpecRun RunP SpecStore.
Local Open Scope nat_scope.

(** ** Deeds and moments *)
Lemma deeds_from_app tab sets reqs i a b past : deeds_from tab sets reqs i past (a ++ b) = deeds_from tab sets reqs i past a ++ deeds_from tab sets reqs i (past ++ a) b.
Proof.
  revert past; induction a as [|x a IH]; intros past; cbn [app deeds_from]; [now rewrite app_nil_r|]. rewrite IH, <- !app_assoc. reflexivity.
Qed.
Lemma deeds_snoc tab sets reqs i past t : deeds tab sets reqs i (past ++ [t]) = deeds tab sets reqs i past ++ deed_of tab sets reqs i past t.
Proof. unfold deeds. rewrite deeds_from_app. cbn [deeds_from app]. now rewrite app_nil_r. Qed.
Lemma ticks_from_app t a b past : ticks_from t past (a ++ b) = ticks_from t past a ++ ticks_from t (past ++ a) b.
Proof.
  revert past; induction a as [|x a IH]; intros past; cbn [app ticks_from]; [now rewrite app_nil_r|]. rewrite IH, <- !app_assoc. reflexivity.
Qed.
Lemma ticks_snoc t past j : ticks t (past ++ [j]) = ticks t past ++ if Nat.eqb j t then [past] else [].
Proof. unfold ticks. rewrite ticks_from_app. cbn [ticks_from app]. now rewrite app_nil_r. Qed.
Lemma ticks_len t past : length (ticks t past) = steps_of t past.
Proof.
  induction past as [|j past IH] using rev_ind; [reflexivity|]. rewrite ticks_snoc, steps_snoc, app_length, IH. destruct (Nat.eqb j t); reflexivity.
Qed.
Lemma now_snoc h p ds x : now h p (ds ++ [x]) = match x with
  | Stored c d' => if (c =? op_code p)%Z then d' else now h p ds
  | Asked mp => if (p_code mp =? op_code p)%Z && may_write h p then p_data mp else now h p ds end.
Proof. unfold now. now rewrite fold_left_app. Qed.

Lemma reads_snoc o hist l mp ts ti : length ts = length l -> reads_at o hist (l ++ [mp]) (ts ++ [ti]) = reads_at o hist l ts ++ [mkprop (p_code mp) (read_now o (p_code mp) (hist ti))].
Proof.
  intros L. unfold reads_at. assert (E : combine (l ++ [mp]) (ts ++ [ti]) = combine l ts ++ [(mp, ti)]).
  { revert ts L. induction l as [|x l IH]; intros [|y ts] L; cbn in L; try discriminate; [reflexivity|]. cbn [app combine]. now rewrite IH by lia. }
  rewrite E, map_app. reflexivity.
Qed.
Lemma reads_more o hist l ts more : length l <= length ts -> reads_at o hist l (ts ++ more) = reads_at o hist l ts.
Proof.
  intros L. unfold reads_at. f_equal. revert ts L. induction l as [|x l IH]; intros [|y ts] L; cbn in L; try lia; try reflexivity. cbn [app combine]. now rewrite IH by lia.
Qed.

(** ** Objects *)
Lemma holds_refl o : holds o [] o.
Proof. split; [destruct o; reflexivity|]. split; [reflexivity|]. intros c. destruct (get_property c o) as [[]|]; reflexivity. Qed.
Lemma holds_handler o ds x : holds o ds x -> o_handler x = o_handler o.
Proof. intros (E & _). rewrite E. destruct o. reflexivity. Qed.
Lemma holds_wf o ds x : holds o ds x -> wf_obj o -> wf_obj x.
Proof. intros (_ & _ & G) W c p E. rewrite G in E. destruct (get_property c o) as [q|] eqn:Q; [|discriminate]. assert (p = mkoprop (op_code q) (now (o_handler o) q ds) (op_get q) (op_set q) (op_anno q)) by congruence. subst p. cbn [op_code]. exact (W _ _ Q). Qed.
Lemma holds_read o ds x mp : holds o ds x -> read_answer x mp = (read_now o (p_code mp) ds, snd (read_answer o mp)).
Proof.
  intros (_ & _ & G). unfold read_answer, read_now. rewrite G. destruct (get_property (p_code mp) o) as [p|]; [|reflexivity].
  unfold can_read. cbn [op_get op_data]. destruct (_ || _); reflexivity.
Qed.
Lemma holds_write o ds x mp : holds o ds x -> write_answer x mp = write_answer o mp.
Proof.
  intros H. pose proof (holds_handler _ _ _ H) as EH. destruct H as (_ & _ & G). unfold write_answer. rewrite G, EH. destruct (get_property (p_code mp) o) as [p|]; [|reflexivity].
  unfold may_write, can_write. cbn [op_set]. reflexivity.
Qed.
Lemma holds_has o ds x c : holds o ds x -> has_property c x = has_property c o.
Proof. intros (_ & _ & G). unfold has_property. rewrite G. destruct (get_property c o); reflexivity. Qed.
Lemma set_data_keys c d x : dkeys (o_props (fst (set_property_data c d x))) = dkeys (o_props x).
Proof. apply set_property_data_keys. Qed.
Lemma holds_stored o ds x c d : holds o ds x -> wf_obj o -> holds o (ds ++ [Stored c d]) (fst (set_property_data c d x)).
Proof.
  intros (E & K & G) W. split; [|split; [rewrite set_data_keys; exact K|]].
  - change (fst (set_property_data c d x)) with (store c d x). rewrite (store_frame c d x) at 1. rewrite E at 2. destruct o; reflexivity.
  - intros k. rewrite set_property_data_get, G. destruct (get_property k o) as [p|] eqn:Q.
    + rewrite now_snoc, (W _ _ Q). destruct (c =? k)%Z; reflexivity.
    + destruct (c =? k)%Z; reflexivity.
Qed.
Lemma holds_same o ds ds' x : holds o ds x -> (forall c p, get_property c o = Some p -> now (o_handler o) p ds' = now (o_handler o) p ds) -> holds o ds' x.
Proof.
  intros (E & K & G) N. split; [exact E|]. split; [exact K|]. intros k. rewrite G. destruct (get_property k o) as [p|] eqn:Q; [|reflexivity]. now rewrite (N _ _ Q).
Qed.
Lemma holds_asked o ds x mp : holds o ds x -> wf_obj o -> holds o (ds ++ [Asked mp]) (apply_write x mp).
Proof.
  intros H W. unfold apply_write. rewrite (holds_write _ _ _ _ H). unfold write_answer. destruct (get_property (p_code mp) o) as [p|] eqn:Q; [destruct (may_write (o_handler o) p) eqn:M|]; cbn [snd].
  - apply (holds_same o (ds ++ [Stored (p_code mp) (p_data mp)])); [apply holds_stored; assumption|].
    intros k q Qk. rewrite !now_snoc, (W _ _ Qk). destruct (Z.eqb_spec (p_code mp) k) as [E|_]; [|reflexivity]. assert (q = p) by congruence. subst q. rewrite M. reflexivity.
  - apply (holds_same o ds); [exact H|]. intros k q Qk. rewrite now_snoc, (W _ _ Qk). destruct (Z.eqb_spec (p_code mp) k) as [E|_]; [|reflexivity]. assert (q = p) by congruence. subst q. rewrite M. reflexivity.
  - apply (holds_same o ds); [exact H|]. intros k q Qk. rewrite now_snoc, (W _ _ Qk). destruct (Z.eqb_spec (p_code mp) k) as [E|_]; [|reflexivity]. congruence.
Qed.

(** ** The treatment of a request *)
Section Req.
Context (o : obj) (B : builtin (o_handler o)) (W : wf_obj o) (hist : list nat -> list deed) (m : msg).
Definition good (mom : list (list nat)) (r : res (option msg)) : Prop :=
  match snd (obj_message_received o m) with
  | Ok (Some a) => exists a', r = Ok (Some a') /\ rest_part m a' = rest_part m a /\
      first_read m + length (asked_reads m) <= length mom /\
      read_part m a' = reads_at o hist (asked_reads m) (skipn (first_read m) mom)
  | x => r = x
  end.
Definition reqpc (mom : list (list nat)) (p : spc) : Prop :=
  match p with
  | SBegin r => False
  | SSets r todo sets n => r = m /\ m_ESV m = 0x6E%Z /\ exists dn, m_sets m = dn ++ todo /\
      sets = answers (write_answer o) dn /\ n = count (write_answer o) dn /\ length mom = S (length dn)
  | SGets r todo sets gets n => r = m /\ m_ESV m = 0x6E%Z /\ sets = answers (write_answer o) (m_sets m) /\
      exists dn, m_gets m = dn ++ todo /\ length mom = 2 + length (m_sets m) + length dn /\
        gets = reads_at o hist dn (skipn (2 + length (m_sets m)) mom) /\ n = (count (write_answer o) (m_sets m) + count (read_answer o) dn)%Z /\
        forallb (fun mp => has_property (p_code mp) o) dn = true
  | SProps r todo ps n => r = m /\ m_ESV m <> 0x6E%Z /\ is_request (m_ESV m) = true /\
      exists dn, m_props m = dn ++ todo /\ length mom = S (length dn) /\
        if (m_ESV m =? 0x62)%Z then n = count (read_answer o) dn /\ ps = reads_at o hist dn (skipn 1 mom)
        else if ((m_ESV m =? 0x60) || (m_ESV m =? 0x61))%Z then ps = answers (write_answer o) dn /\ n = count (write_answer o) dn
        else ps = answers (fun _ => ([], false)) dn /\ n = 0%Z
  | SDone r => length (asked_writes m) < length mom /\ good mom r
  end.
Definition made (k : nat) : list deed :=
  match k with S k => match nth_error (asked_writes m) k with Some mp => [Asked mp] | None => [] end | O => [] end.
Lemma made_none k : length (asked_writes m) < k -> made k = [].
Proof. intros L. destruct k as [|k]; [reflexivity|]. cbn [made]. rewrite (proj2 (nth_error_None _ _)) by lia. reflexivity. Qed.

Lemma good_plain mom ps n : m_ESV m <> 0x6E%Z -> is_request (m_ESV m) = true -> length mom = S (length (m_props m)) ->
  (if (m_ESV m =? 0x62)%Z then n = count (read_answer o) (m_props m) /\ ps = reads_at o hist (m_props m) (skipn 1 mom)
   else if ((m_ESV m =? 0x60) || (m_ESV m =? 0x61))%Z then ps = answers (write_answer o) (m_props m) /\ n = count (write_answer o) (m_props m)
   else ps = answers (fun _ => ([], false)) (m_props m) /\ n = 0%Z) ->
  good mom (answer_of m ps [] [] n).
Proof.
  intros N6 RQ C H. unfold good. rewrite (received_plain o m (builtin_not_none o B) RQ) by lia.
  unfold answer_of, do_plain. destruct (requests _ RQ) as [E|[E|[E|[E|[E|E]]]]]; [| | | |lia|]; rewrite E in *;
    unfold is_read_request, is_write_request, READ_REQUEST, WRITE_REQUEST, WRITE_READ_REQUEST, WRITE_REQUEST_RESPONSE_REQUIRED; cbn [Z.eqb Pos.eqb orb] in *.
  - destruct H as (-> & ->). destruct (loop_write (m_props m) o B W) as (o' & -> & _). cbn [snd]. unfold response_esv, WRITE_REQUEST; cbn [Z.eqb Pos.eqb].
    destruct (_ =? _)%Z; cbn [option_map]; [reflexivity|]. eexists. split; [reflexivity|]. unfold rest_part, asked_reads, read_part, first_read. rewrite E. cbn [Z.eqb Pos.eqb orb length].
    split; [reflexivity|]. split; [lia|reflexivity].
  - destruct H as (-> & ->). destruct (loop_write (m_props m) o B W) as (o' & -> & _). cbn [snd]. unfold response_esv, WRITE_REQUEST, WRITE_REQUEST_RESPONSE_REQUIRED; cbn [Z.eqb Pos.eqb].
    destruct (_ =? _)%Z; cbn [option_map]; (eexists; split; [reflexivity|]; unfold rest_part, asked_reads, read_part, first_read; rewrite E; cbn [Z.eqb Pos.eqb orb length];
    split; [reflexivity|]; split; [lia|reflexivity]).
  - destruct H as (-> & ->). rewrite (loop_read o _ B W). cbn [snd]. unfold response_esv, WRITE_REQUEST, WRITE_REQUEST_RESPONSE_REQUIRED, READ_REQUEST; cbn [Z.eqb Pos.eqb].
    destruct (_ =? _)%Z; cbn [option_map]; (eexists; split; [reflexivity|]; unfold rest_part, asked_reads, read_part, first_read; rewrite E; cbn [Z.eqb Pos.eqb orb];
    split; [reflexivity|]; split; [lia|reflexivity]).
  - destruct H as (-> & ->). rewrite loop_skip. cbn [snd]. generalize (0 =? OPC m + OPCSet m + OPCGet m)%Z; intros q0. unfold response_esv, WRITE_REQUEST, WRITE_REQUEST_RESPONSE_REQUIRED, READ_REQUEST, WRITE_READ_REQUEST, NOTIFICATION_REQUEST; cbn [Z.eqb Pos.eqb].
    destruct q0; cbn [option_map]; (eexists; split; [reflexivity|]; unfold rest_part, asked_reads, read_part, first_read; rewrite E; cbn [Z.eqb Pos.eqb orb length];
    split; [reflexivity|]; split; [lia|reflexivity]).
  - destruct H as (-> & ->). rewrite loop_skip. cbn [snd]. generalize (0 =? OPC m + OPCSet m + OPCGet m)%Z; intros q0. unfold response_esv, WRITE_REQUEST, WRITE_REQUEST_RESPONSE_REQUIRED, READ_REQUEST, WRITE_READ_REQUEST, NOTIFICATION_REQUEST, NOTIFICATION_RESPONSE_REQUIRED; cbn [Z.eqb Pos.eqb].
    destruct q0; cbn [option_map]; [|reflexivity]. eexists; split; [reflexivity|]; unfold rest_part, asked_reads, read_part, first_read; rewrite E; cbn [Z.eqb Pos.eqb orb length];
    split; [reflexivity|]; split; [lia|reflexivity].
Qed.
Lemma good_wr mom n : m_ESV m = 0x6E%Z -> length mom = 2 + length (m_sets m) + length (m_gets m) ->
  n = (count (write_answer o) (m_sets m) + count (read_answer o) (m_gets m))%Z -> forallb (fun mp => has_property (p_code mp) o) (m_gets m) = true ->
  good mom (answer_of m [] (answers (write_answer o) (m_sets m)) (reads_at o hist (m_gets m) (skipn (2 + length (m_sets m)) mom)) n).
Proof.
  intros E L -> A. unfold good. rewrite (received_wr o m (builtin_not_none o B) E). destruct (loop_write (m_sets m) o B W) as (o' & -> & Wr).
  assert (B' : builtin (o_handler o')) by (rewrite (written_handler _ _ _ Wr); exact B).
  rewrite (loop_read_wr o' _ B' (written_wf _ _ _ Wr W)).
  rewrite (forallb_same _ (fun mp => has_property (p_code mp) o)), A by (intros; apply (written_has _ _ _ _ Wr)). cbn [snd].
  rewrite (count_ext (read_answer o') (read_answer o)) by (intros; apply (written_read_snd _ _ _ _ Wr)).
  unfold answer_of, response_esv, WRITE_REQUEST, WRITE_REQUEST_RESPONSE_REQUIRED, READ_REQUEST, WRITE_READ_REQUEST. rewrite E. cbn [Z.eqb Pos.eqb].
  exists (resp_of m (if (count (write_answer o) (m_sets m) + count (read_answer o) (m_gets m) =? OPC m + OPCSet m + OPCGet m)%Z then 0x7E%Z else 0x5E%Z) [] (answers (write_answer o) (m_sets m)) (reads_at o hist (m_gets m) (skipn (2 + length (m_sets m)) mom))).
  split; [destruct (_ =? _)%Z; reflexivity|]. unfold rest_part, asked_reads, read_part, first_read. rewrite E. cbn [Z.eqb Pos.eqb]. split; [reflexivity|]. split; [lia|reflexivity].
Qed.
Lemma good_missing mom dn mp todo : m_ESV m = 0x6E%Z -> m_gets m = dn ++ mp :: todo -> has_property (p_code mp) o = false -> good mom (Err AttributeError).
Proof.
  intros E6 M HP. unfold good. rewrite (received_wr o m (builtin_not_none o B) E6). destruct (loop_write (m_sets m) o B W) as (o' & -> & Wr').
  assert (B' : builtin (o_handler o')) by (rewrite (written_handler _ _ _ Wr'); exact B).
  rewrite (loop_read_wr o' _ B' (written_wf _ _ _ Wr' W)).
  rewrite (forallb_same _ (fun mp => has_property (p_code mp) o)) by (intros; apply (written_has _ _ _ _ Wr')). rewrite M, forallb_app. cbn [forallb]. rewrite HP, andb_false_r. reflexivity.
Qed.
Lemma good_more mom past r : good mom r -> good (mom ++ [past]) r.
Proof.
  unfold good. destruct (snd (obj_message_received o m)) as [[a|]|e]; auto. intros (a' & E & R & L & Q). exists a'. split; [exact E|]. split; [exact R|]. rewrite app_length. split; [lia|].
  rewrite Q, skipn_app. symmetry. apply reads_more. rewrite skipn_length. lia.
Qed.
Lemma begins past x ds : holds o ds x -> reqpc [past] (snd (pstep x (SBegin m))) /\ fst (pstep x (SBegin m)) = x.
Proof.
  intros H. pose proof (holds_handler _ _ _ H) as EH. cbn [pstep]. destruct (is_request (m_ESV m)) eqn:RQ; cbn [negb].
  - destruct (o_handler x) eqn:X; [exfalso; rewrite <- EH in B; destruct B; discriminate| | |]; (split; [|reflexivity]);
    unfold is_write_read_request, WRITE_READ_REQUEST; destruct (Z.eqb_spec (m_ESV m) 0x6E) as [E6|N6]; cbn [snd reqpc];
    (split; [reflexivity|]); (split; [assumption|]); try (exists []; repeat split; fail);
    (split; [exact RQ|]); exists []; (split; [reflexivity|]); (split; [reflexivity|]); destruct (m_ESV m =? 0x62)%Z; [split; reflexivity| |split; reflexivity| |split; reflexivity|]; destruct (_ || _); split; reflexivity.
  - split; [|reflexivity]. cbn [snd reqpc]. split.
    + unfold asked_writes. destruct (Z.eqb_spec (m_ESV m) 0x6E) as [X|_]; [rewrite X in RQ; discriminate|]. destruct (Z.eqb_spec (m_ESV m) 0x60) as [X|_]; [rewrite X in RQ; discriminate|].
      destruct (Z.eqb_spec (m_ESV m) 0x61) as [X|_]; [rewrite X in RQ; discriminate|]. cbn. lia.
    + unfold good, obj_message_received. rewrite RQ. reflexivity.
Qed.
Lemma goes_on mom past x p : reqpc mom p -> holds o (hist past) x ->
  reqpc (mom ++ [past]) (snd (pstep x p)) /\ holds o (hist past ++ made (length mom)) (fst (pstep x p)).
Proof.
  intros I H.
  assert (Bx : builtin (o_handler x)) by (rewrite (holds_handler _ _ _ H); exact B).
  assert (Wx : wf_obj x) by exact (holds_wf _ _ _ H W).
  assert (Q : length (mom ++ [past]) = S (length mom)) by (rewrite app_length; cbn; lia).
  assert (NW : length (asked_writes m) < length mom -> holds o (hist past ++ made (length mom)) x) by (intros L; rewrite (made_none _ L), app_nil_r; exact H).
  unfold reqpc in *. rewrite Q. destruct p as [r|r todo sets n|r todo sets gets n|r todo ps n|r].
  - contradiction.
  - destruct I as (-> & E6 & dn & M & -> & -> & C). destruct todo as [|mp todo]; cbn [pstep].
    + rewrite app_nil_r in M. subst dn. cbn [fst snd]. split; [|apply NW; unfold asked_writes; rewrite E6; cbn; lia].
      split; [reflexivity|]. split; [exact E6|]. split; [reflexivity|]. exists []. split; [reflexivity|]. split; [cbn; lia|]. split; [reflexivity|]. split; [unfold count, zlen; cbn; lia|reflexivity].
    + rewrite (do_write_builtin x mp Bx Wx). cbn [fst snd]. rewrite (holds_write _ _ _ mp H). split.
      * split; [reflexivity|]. split; [exact E6|]. exists (dn ++ [mp]). rewrite <- app_assoc, answers_app, count_snoc, app_length. cbn [length]. repeat split; auto; lia.
      * unfold made. rewrite C. unfold asked_writes. rewrite E6. cbn [Z.eqb Pos.eqb]. rewrite M, nth_error_app2, Nat.sub_diag by lia. cbn [nth_error]. now apply holds_asked.
  - destruct I as (-> & E6 & -> & dn & M & C & -> & -> & A). assert (NW' : holds o (hist past ++ made (length mom)) x) by (apply NW; unfold asked_writes; rewrite E6; cbn; lia). destruct todo as [|mp todo]; cbn [pstep].
    + rewrite app_nil_r in M. subst dn. cbn [fst snd]. split; [|exact NW']. split; [unfold asked_writes; rewrite E6; cbn; lia|]. apply good_more. now apply good_wr.
    + rewrite (do_read_wr_builtin x mp Bx Wx), (holds_has _ _ _ _ H). destruct (has_property (p_code mp) o) eqn:HP; cbn [fst snd]; (split; [|exact NW']).
      * split; [reflexivity|]. split; [exact E6|]. split; [reflexivity|]. exists (dn ++ [mp]). rewrite <- app_assoc, app_length. split; [exact M|]. split; [cbn [length]; lia|].
        split. { rewrite (holds_read _ _ _ _ H). cbn [fst]. rewrite skipn_app. replace (2 + length (m_sets m) - length mom) with 0 by lia. cbn [skipn]. rewrite reads_snoc; [reflexivity|]. change (match mom with [] => [] | _ :: l => _ end) with (skipn (2 + length (m_sets m)) mom). rewrite skipn_length. lia. }
        split; [rewrite count_snoc, (holds_read _ _ _ _ H); cbn [snd]; lia|]. rewrite forallb_app, A. cbn [forallb]. rewrite HP. reflexivity.
      * split; [unfold asked_writes; rewrite E6; cbn; lia|]. exact (good_missing _ dn mp todo E6 M HP).
  - destruct I as (-> & N6 & RQ & dn & M & C & G). destruct todo as [|mp todo]; cbn [pstep].
    + rewrite app_nil_r in M. subst dn. cbn [fst snd].
      assert (A : length (asked_writes m) < length mom).
      { rewrite C. unfold asked_writes. destruct (m_ESV m =? 0x6E)%Z eqn:E6; [lia|]. destruct (_ || _); cbn; lia. }
      split; [|exact (NW A)]. split; [lia|]. apply good_more. now apply good_plain.
    + unfold do_plain. destruct (requests _ RQ) as [X|[X|[X|[X|[X|X]]]]]; [| | | |lia|]; rewrite X in *;
        unfold is_read_request, is_write_request, READ_REQUEST, WRITE_REQUEST, WRITE_READ_REQUEST, WRITE_REQUEST_RESPONSE_REQUIRED; cbn [Z.eqb Pos.eqb orb] in *.
      1-2: destruct G as (-> & ->); rewrite (do_write_builtin x mp Bx Wx); cbn [fst snd]; rewrite (holds_write _ _ _ mp H); split;
        [split; [reflexivity|]; split; [exact N6|]; split; [exact RQ|]; exists (dn ++ [mp]); rewrite <- app_assoc, answers_app, count_snoc, app_length; cbn [length]; repeat split; auto; lia
        |unfold made; rewrite C; unfold asked_writes; rewrite X; cbn [Z.eqb Pos.eqb orb]; rewrite M, nth_error_app2, Nat.sub_diag by lia; cbn [nth_error]; now apply holds_asked].
      1: destruct G as (-> & ->); rewrite (do_read_builtin x mp Bx Wx); cbn [fst snd]; split; [|apply NW; unfold asked_writes; rewrite X; cbn; lia];
        split; [reflexivity|]; split; [exact N6|]; split; [exact RQ|]; exists (dn ++ [mp]); rewrite <- app_assoc, app_length; cbn [length]; split; [exact M|]; split; [lia|]; split;
        [rewrite count_snoc, (holds_read _ _ _ _ H); cbn [snd]; lia|]; rewrite (holds_read _ _ _ _ H); cbn [fst]; rewrite skipn_app; replace (1 - length mom) with 0 by lia; cbn [skipn]; rewrite reads_snoc; [reflexivity|]; change (match mom with [] => [] | _ :: l => _ end) with (skipn 1 mom); rewrite skipn_length; lia.
      1-2: destruct G as (-> & ->); cbn [do_skip fst snd]; split; [|apply NW; unfold asked_writes; rewrite X; cbn; lia];
        split; [reflexivity|]; split; [exact N6|]; split; [exact RQ|]; exists (dn ++ [mp]); rewrite <- app_assoc, answers_app, app_length; cbn [length]; split; [exact M|]; split; [lia|]; split; reflexivity.
  - destruct I as (C & G). cbn [pstep fst snd]. split; [|exact (NW C)]. split; [lia|]. now apply good_more.
Qed.
End Req.

(** ** The run *)
Section Shared.
Context {PS : PySet} (h : list obj) (tab : list (Z * nat)) (prof : nat) (sets : list (list (nat * Z * list Z))) (reqs : list msg) (R : ready h tab sets).
Definition cset (x : nat * Z * list Z) : ucall := CSet (fst (fst x)) (snd (fst x)) (snd x).
Definition rset (x : nat * Z * list Z) : ures := UBool (has_property (snd (fst x)) (at_ref h (fst (fst x)))).
Definition thr_ok (past : list nat) (t : nat) (x : option thr) : Prop :=
  match nth_error sets t with
  | Some l => x = Some (TUser (map cset (skipn (steps_of t past) l)) UNext (map rset (firstn (steps_of t past) l)))
  | None =>
      match nth_error reqs (t - length sets) with
      | None => x = None
      | Some m =>
          match steps_of t past with
          | O => x = Some (TReq m)
          | S _ =>
              match zget (m_DEOJ m) tab with
              | None => x = Some TNone
              | Some i => exists p, x = Some (TServe i p) /\ reqpc (at_ref h i) (deeds tab sets reqs i) m (ticks t past) p
              end
          end
      end
  end.
Lemma thr_wait past t j x : j <> t -> thr_ok past t x -> thr_ok (past ++ [j]) t x.
Proof. intros N. unfold thr_ok. rewrite steps_snoc, ticks_snoc. destruct (Nat.eqb_spec j t); [congruence|]. now rewrite Nat.add_0_r, app_nil_r. Qed.
Definition shared (past : list nat) (s : rst) : Prop :=
  r_tab s = tab /\ length (r_heap s) = length h /\
  (forall i, i < length h -> holds (at_ref h i) (deeds tab sets reqs i past) (at_ref (r_heap s) i)) /\
  forall t, thr_ok past t (nth_error (r_thr s) t).
Lemma heap_ok i : i < length h -> builtin (o_handler (at_ref h i)) /\ wf_obj (at_ref h i).
Proof.
  intros L. destruct R as (A & _). destruct (nth_error h i) as [o|] eqn:E; [|apply nth_error_None in E; lia]. rewrite (at_ref_some _ _ _ E). exact (A _ _ E).
Qed.
Lemma one_step past s t x h' x' : shared past s -> nth_error (r_thr s) t = Some x -> estep (r_heap s) (r_tab s) (r_prof s) x = (h', tab, x') -> length h' = length h ->
  (forall i, i < length h -> holds (at_ref h i) (deeds tab sets reqs i past ++ deed_of tab sets reqs i past t) (at_ref h' i)) ->
  thr_ok (past ++ [t]) t (Some x') -> shared (past ++ [t]) (rstep s t).
Proof.
  intros (T & L & H & P) E X L' H' P'. rewrite (rstep_at _ _ _ _ _ _ E X). split; [reflexivity|]. split; [exact L'|]. split.
  - intros i Li. rewrite deeds_snoc. exact (H' i Li).
  - intros u. cbn [r_thr]. rewrite nth_put. destruct (Nat.eqb_spec u t) as [->|N]; [rewrite E; exact P'|]. apply thr_wait; [congruence|apply P].
Qed.
Lemma shared_step past s t : shared past s -> shared (past ++ [t]) (rstep s t).
Proof.
  intros Sh. pose proof Sh as (T & L & H & P). pose proof (P t) as Pt. unfold thr_ok in Pt. destruct (nth_error sets t) as [l|] eqn:St.
  - set (k := steps_of t past) in *. destruct (nth_error l k) as [[[i c] d]|] eqn:K.
    + assert (Sk : skipn k l = (i, c, d) :: skipn (S k) l) by (clear -K; revert l K; induction k as [|k IH]; intros [|y l] K; cbn in K |- *; try discriminate; [congruence|now apply IH]).
      assert (Fk : firstn (S k) l = firstn k l ++ [(i, c, d)]) by (apply firstn_S; exact K).
      assert (Li : i < length h). { destruct R as (_ & _ & A). apply (A l i c d); [exact (nth_error_In _ _ St)|exact (nth_error_In _ _ K)]. }
      rewrite Sk in Pt. cbn [map] in Pt.
      apply (one_step past s t _ (put (r_heap s) i (fst (set_property_data c d (at_ref (r_heap s) i)))) (TUser (map cset (skipn (S k) l)) UNext (map rset (firstn (S k) l))) Sh Pt).
      * cbn [estep cset fst snd]. rewrite T. destruct (set_property_data c d (at_ref (r_heap s) i)) as [o r] eqn:Z. cbn [fst]. f_equal. f_equal. rewrite Fk, map_app. cbn [map]. f_equal. f_equal. unfold rset. cbn [fst snd]. f_equal.
        rewrite <- (holds_has _ _ _ c (H i Li)). unfold set_property_data, has_property, get_property in *. destruct (zget c _); cbn [isSome]; congruence.
      * rewrite length_put. exact L.
      * intros u Lu. unfold deed_of. rewrite St. fold k. rewrite K, at_put by lia. destruct (Nat.eqb_spec u i) as [->|N].
        -- rewrite Nat.eqb_refl. apply holds_stored; [exact (H i Li)|exact (proj2 (heap_ok i Li))].
        -- destruct (Nat.eqb_spec i u); [congruence|]. rewrite app_nil_r. exact (H u Lu).
      * unfold thr_ok. rewrite St, steps_snoc, Nat.eqb_refl, Nat.add_1_r. reflexivity.
    + assert (Lk : length l <= k) by now apply nth_error_None. rewrite skipn_all2, firstn_all2 in Pt by lia. cbn [map] in Pt.
      apply (one_step past s t _ (r_heap s) (TUser [] UNext (map rset l)) Sh Pt).
      * cbn [estep]. now rewrite T.
      * exact L.
      * intros u Lu. unfold deed_of. rewrite St. fold k. rewrite K, app_nil_r. exact (H u Lu).
      * unfold thr_ok. rewrite St, steps_snoc, Nat.eqb_refl. fold k. rewrite skipn_all2, firstn_all2 by lia. reflexivity.
  - destruct (nth_error reqs (t - length sets)) as [m|] eqn:Rm.
    2:{ rewrite (rstep_none _ _ Pt). split; [exact T|]. split; [exact L|]. split.
        - intros u Lu. rewrite deeds_snoc. unfold deed_of. rewrite St, Rm, app_nil_r. exact (H u Lu).
        - intros u. destruct (Nat.eq_dec t u) as [<-|N]; [|now apply thr_wait]. unfold thr_ok. rewrite St, Rm. exact Pt. }
    destruct (zget (m_DEOJ m) tab) as [i|] eqn:G.
    + assert (Li : i < length h) by (destruct R as (_ & A & _); exact (A _ _ G)). destruct (heap_ok i Li) as (B & W).
      destruct (steps_of t past) as [|k] eqn:K.
      * destruct (begins (at_ref h i) B (deeds tab sets reqs i) m past (at_ref (r_heap s) i) _ (H i Li)) as (Q1 & Q2).
        apply (one_step past s t _ _ _ Sh Pt (eq_trans (estep_asking _ _ _ (TReq m) m i (SBegin m) (eq_trans (f_equal (zget (m_DEOJ m)) T) G) (or_introl (conj eq_refl eq_refl))) (f_equal (fun z => (_, z, _)) T))).
        -- rewrite length_put. exact L.
        -- intros u Lu. unfold deed_of. rewrite St, Rm, K, app_nil_r, Q2, at_put by lia. destruct (Nat.eqb_spec u i) as [->|N]; exact (H _ Lu).
        -- unfold thr_ok. rewrite St, Rm, steps_snoc, K, Nat.eqb_refl. cbn [Nat.add]. rewrite G. eexists. split; [reflexivity|]. rewrite ticks_snoc, Nat.eqb_refl.
           assert (Z : ticks t past = []) by (destruct (ticks t past) eqn:Z; [reflexivity|]; apply (f_equal (@length _)) in Z; rewrite ticks_len, K in Z; discriminate). rewrite Z. exact Q1.
      * destruct Pt as (p & Pt & Ip). destruct (goes_on (at_ref h i) B W (deeds tab sets reqs i) m (ticks t past) past (at_ref (r_heap s) i) p Ip (H i Li)) as (Q1 & Q2).
        apply (one_step past s t _ _ _ Sh Pt (eq_trans (estep_asking _ _ _ (TServe i p) m i p (eq_trans (f_equal (zget (m_DEOJ m)) T) G) (or_intror eq_refl)) (f_equal (fun z => (_, z, _)) T))).
        -- rewrite length_put. exact L.
        -- intros u Lu. unfold deed_of, goes_to. rewrite St, Rm, K, G, at_put by lia. rewrite ticks_len, K in Q2. cbn [made] in Q2. destruct (Nat.eqb_spec u i) as [->|N].
           ++ rewrite Nat.eqb_refl. exact Q2.
           ++ destruct (Nat.eqb_spec i u); [congruence|]. rewrite app_nil_r. exact (H _ Lu).
        -- unfold thr_ok. rewrite St, Rm, steps_snoc, K, Nat.eqb_refl. cbn [Nat.add]. rewrite G. eexists. split; [reflexivity|]. rewrite ticks_snoc, Nat.eqb_refl. exact Q1.
    + assert (exists y, nth_error (r_thr s) t = Some y /\ estep (r_heap s) (r_tab s) (r_prof s) y = (r_heap s, tab, TNone)) as (y & Y1 & Y2).
      { rewrite T. destruct (steps_of t past); eexists; (split; [exact Pt|]); cbn [estep]; [rewrite key_of, G|]; reflexivity. }
      apply (one_step past s t _ _ _ Sh Y1 Y2); [exact L| |].
      * intros u Lu. unfold deed_of, goes_to. rewrite St, Rm, G. destruct (steps_of t past); rewrite app_nil_r; exact (H _ Lu).
      * unfold thr_ok. rewrite St, Rm, steps_snoc, Nat.eqb_refl, Nat.add_1_r, G. reflexivity.
Qed.
Lemma shared_start : shared [] (sharing h tab prof sets reqs).
Proof.
  split; [reflexivity|]. split; [reflexivity|]. split; [intros i _; apply holds_refl|]. intros t. unfold thr_ok, sharing. cbn [r_thr]. destruct (nth_error sets t) as [l|] eqn:E.
  - rewrite nth_error_app1 by (rewrite map_length; apply nth_error_Some; congruence). rewrite nth_error_map, E. reflexivity.
  - apply nth_error_None in E. rewrite nth_error_app2, map_length, nth_error_map by (rewrite map_length; exact E). destruct (nth_error reqs (t - length sets)); reflexivity.
Qed.
Lemma shared_run sched : shared sched (rrun (sharing h tab prof sets reqs) sched).
Proof.
  induction sched as [|t sched IH] using rev_ind; [exact shared_start|]. rewrite rrun_snoc. now apply shared_step.
Qed.
End Shared.

(** ** C92 *)
Lemma L_C92_data : forall (PS : PySet) h tab prof sets reqs sched i o, ready h tab sets -> nth_error h i = Some o ->
  exists o', nth_error (r_heap (rrun (sharing h tab prof sets reqs) sched)) i = Some o' /\ holds o (deeds tab sets reqs i sched) o'.
Proof.
  intros PS h tab prof sets reqs sched i o R E. destruct (shared_run h tab prof sets reqs R sched) as (_ & L & H & _). assert (Li : i < length h) by (apply nth_error_Some; congruence).
  specialize (H i Li). rewrite (at_ref_some _ _ _ E) in H. set (s := rrun _ _) in *. destruct (nth_error (r_heap s) i) as [o'|] eqn:Q; [|apply nth_error_None in Q; lia].
  exists o'. split; [reflexivity|]. now rewrite (at_ref_some _ _ _ Q) in H.
Qed.
Lemma req_at {PS : PySet} h tab prof sets reqs sched r m : ready h tab sets -> nth_error reqs r = Some m -> let t := length sets + r in
  match steps_of t sched with
  | O => nth_error (r_thr (rrun (sharing h tab prof sets reqs) sched)) t = Some (TReq m)
  | S _ => match zget (m_DEOJ m) tab with
           | None => nth_error (r_thr (rrun (sharing h tab prof sets reqs) sched)) t = Some TNone
           | Some i => exists p, nth_error (r_thr (rrun (sharing h tab prof sets reqs) sched)) t = Some (TServe i p) /\ reqpc (at_ref h i) (deeds tab sets reqs i) m (ticks t sched) p
           end
  end.
Proof.
  intros R E t. destruct (shared_run h tab prof sets reqs R sched) as (_ & _ & _ & P). specialize (P t). unfold thr_ok in P.
  rewrite (proj2 (nth_error_None sets t)) in P by (unfold t; lia). replace (t - length sets) with r in P by (unfold t; lia). rewrite E in P. exact P.
Qed.
Lemma L_C92_answer : forall (PS : PySet) h tab prof sets reqs sched r m i o j x, ready h tab sets -> nth_error reqs r = Some m ->
  zget (m_DEOJ m) tab = Some i -> nth_error h i = Some o -> let t := length sets + r in
  nth_error (r_thr (rrun (sharing h tab prof sets reqs) sched)) t = Some (TServe j (SDone x)) ->
  match snd (obj_message_received o m) with
  | Ok (Some a) => exists a', x = Ok (Some a') /\ rest_part m a' = rest_part m a /\ length (read_part m a') = length (asked_reads m) /\
      read_part m a' = reads_at o (deeds tab sets reqs i) (asked_reads m) (skipn (first_read m) (ticks t sched))
  | y => x = y
  end.
Proof.
  intros PS h tab prof sets reqs sched r m i o j x R E G O t X. pose proof (req_at h tab prof sets reqs sched r m R E) as Q. cbn zeta in Q. fold t in Q. rewrite G, (at_ref_some _ _ _ O) in Q. destruct (steps_of t sched); [congruence|].
  destruct Q as (p & Q & I). assert (p = SDone x) by congruence. subst p. destruct I as (_ & I). unfold good in I. destruct (snd (obj_message_received o m)) as [[a|]|e]; auto.
  destruct I as (a' & I1 & I2 & I3 & I4). exists a'. split; [exact I1|]. split; [exact I2|]. split; [|exact I4].
  rewrite I4. unfold reads_at. rewrite map_length, combine_length, skipn_length. lia.
Qed.
Lemma L_C92_unknown : forall (PS : PySet) h tab prof sets reqs sched r m, ready h tab sets -> nth_error reqs r = Some m ->
  zget (m_DEOJ m) tab = None -> let t := length sets + r in In t sched ->
  nth_error (r_thr (rrun (sharing h tab prof sets reqs) sched)) t = Some TNone.
Proof.
  intros PS h tab prof sets reqs sched r m R E G t I. pose proof (req_at h tab prof sets reqs sched r m R E) as Q. cbn zeta in Q. fold t in Q. rewrite G in Q.
  destruct (steps_of t sched) eqn:K; [|exact Q]. apply (count_occ_In Nat.eq_dec) in I. unfold steps_of in K. lia.
Qed.
Lemma L_C92_results : forall (PS : PySet) h tab prof sets reqs sched u l, ready h tab sets -> nth_error sets u = Some l ->
  results_of u (rrun (sharing h tab prof sets reqs) sched) =
  map (fun x => UBool match nth_error h (fst (fst x)) with Some o => isSome (get_property (snd (fst x)) o) | None => false end) (firstn (steps_of u sched) l).
Proof.
  intros PS h tab prof sets reqs sched u l R E. destruct (shared_run h tab prof sets reqs R sched) as (_ & _ & _ & P). specialize (P u). unfold thr_ok in P. rewrite E in P.
  unfold results_of. rewrite P. apply map_ext_in. intros [[i c] d] I. unfold rset. cbn [fst snd]. destruct R as (_ & _ & A).
  assert (L : i < length h). { apply (A l i c d); [exact (nth_error_In _ _ E)|]. rewrite <- (firstn_skipn (steps_of u sched) l). apply in_or_app. now left. }
  destruct (nth_error h i) as [o|] eqn:Q; [|apply nth_error_None in Q; lia]. rewrite (at_ref_some _ _ _ Q). reflexivity.
Qed.
Lemma L_C92_ends : forall (PS : PySet) h tab prof sets reqs sched r m, ready h tab sets -> nth_error reqs r = Some m -> let t := length sets + r in
  3 + length (m_props m) + length (m_sets m) + length (m_gets m) <= steps_of t sched ->
  let s := rrun (sharing h tab prof sets reqs) sched in
  nth_error (r_thr s) t = Some TNone \/ exists i x, nth_error (r_thr s) t = Some (TServe i (SDone x)).
Proof.
  intros PS h tab prof sets reqs sched r m R E t L s. destruct (serve_ends t sched (sharing h tab prof sets reqs) (TReq m)) as (y & Y1 & Y2 & Y3 & Y4 & _).
  - cbn [sharing r_thr]. unfold t. rewrite nth_error_app2, map_length, nth_error_map by (rewrite map_length; lia). replace (length sets + r - length sets) with r by lia. now rewrite E.
  - exact I.
  - fold s in Y1. assert (IN : In t sched) by (apply (count_occ_In Nat.eq_dec); unfold steps_of in L; lia). specialize (Y4 IN). cbn [tpot] in Y3.
    rewrite Y1. destruct y as [|m'|j p|]; [contradiction|destruct (Y4 m'); reflexivity| |now left]. right. exists j. cbn [tpot] in Y3. assert (P0 : pot p = 0) by lia. destruct p; cbn [pot] in P0; try discriminate P0. eauto.
Qed.
