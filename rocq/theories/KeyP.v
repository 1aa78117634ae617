From Verif Require Import PyBase BytesM EsvM MsgM PropM ObjM DbData DbM DictP MapP HeapM SpecHeap HeapP KeyM SpecKey.
Local Open Scope nat_scope.

(** ** Writing to properties *)
Lemma hval_put l p h x : hval (put_val l p h) x = if (x =? l) && (l <? length (h_props h)) then p else hval h x.
Proof.
  unfold hval, put_val, put_prop. cbn [h_props]. rewrite nth_upd. destruct ((x =? l) && (l <? length (h_props h))); reflexivity.
Qed.
Lemma put_objs l p h : h_objs (put_val l p h) = h_objs h.
Proof. reflexivity. Qed.
Lemma put_len l p h : length (h_props (put_val l p h)) = length (h_props h).
Proof. unfold put_val, put_prop. cbn [h_props]. apply upd_len. Qed.
Lemma hget_objs c i h h' : h_objs h' = h_objs h -> h_get c i h' = h_get c i h.
Proof. intros E. unfold h_get, hobj_at. now rewrite E. Qed.
Lemma put_get l p h c i : h_get c i (put_val l p h) = h_get c i h.
Proof. now apply hget_objs. Qed.

Lemma sb_refl h : same_but_data h h.
Proof. repeat split. Qed.
Lemma sb_trans a b c : same_but_data a b -> same_but_data b c -> same_but_data a c.
Proof.
  intros (A1 & A2 & A3) (B1 & B2 & B3). split; [congruence|split; [congruence|]]. intros x.
  destruct (A3 x) as (P1 & P2 & P3 & P4), (B3 x) as (Q1 & Q2 & Q3 & Q4). repeat split; congruence.
Qed.
Lemma sb_data l d h : same_but_data h (h_put_data l d h).
Proof.
  split; [reflexivity|split; [apply put_len|]]. intros x. unfold h_put_data. rewrite hval_put.
  destruct ((x =? l) && (l <? length (h_props h))) eqn:E; [|repeat split].
  apply andb_true_iff in E. destruct E as (E & _). apply Nat.eqb_eq in E. subst. repeat split.
Qed.
Lemma sb_set c d i h : same_but_data h (fst (h_set_data c d i h)).
Proof. unfold h_set_data. destruct (h_get c i h); [apply sb_data|apply sb_refl]. Qed.
Lemma sb_get a b c i : same_but_data a b -> h_get c i b = h_get c i a.
Proof. intros (E & _). now apply hget_objs. Qed.
Lemma sb_code a b x : same_but_data a b -> op_code (hval b x) = op_code (hval a x).
Proof. intros (_ & _ & E). apply E. Qed.
Lemma sb_judge a b i c : same_but_data a b -> judge b i c = judge a i c.
Proof.
  intros E. unfold judge. rewrite (sb_get a b) by exact E. destruct (h_get c i a); [|reflexivity].
  rewrite (sb_code a b) by exact E. now apply sb_get.
Qed.
Lemma sb_writable a b i c : same_but_data a b -> writable b i c = writable a i c.
Proof.
  intros E. unfold writable. rewrite (sb_judge a b) by exact E. destruct (judge a i c) as [q|]; [|reflexivity].
  destruct E as (_ & _ & E). destruct (E q) as (_ & _ & F & _). now rewrite F.
Qed.
Lemma sb_readable a b i c : same_but_data a b -> readable b i c = readable a i c.
Proof.
  intros E. unfold readable. rewrite (sb_judge a b) by exact E. destruct (judge a i c) as [q|]; [|reflexivity].
  destruct E as (_ & _ & E). destruct (E q) as (_ & F & _). now rewrite F.
Qed.
Lemma allowed_enabled a : attribute_enabled a = allowed a.
Proof. unfold attribute_enabled, allowed, REQUIRED, OPTIONAL. destruct (a =? 1)%Z, (a =? 2)%Z; reflexivity. Qed.

Section K.
Context {PS : PySet}.

Lemma sb_map c m i h : same_but_data h (fst (h_set_map c m i h)).
Proof.
  unfold h_set_map. destruct (h_get c i h) eqn:G; [|apply sb_refl].
  destruct (bytes_of (zlen m :: m)) as [b|e]; [|apply sb_refl].
  destruct (is_format1 (zlen m)).
  - pose proof (sb_set c b i h) as Q. destruct (h_set_data c b i h). exact Q.
  - destruct (bytes_of _) as [b'|e]; [|apply sb_refl].
    pose proof (sb_set c b' i h) as Q. destruct (h_set_data c b' i h). exact Q.
Qed.
Lemma sb_maps i h : same_but_data h (fst (h_update_maps i h)).
Proof.
  unfold h_update_maps. cbv zeta.
  pose proof (sb_map ANNO_PROPERTY_MAP (set_list (h_codes is_announce_required i h)) i h) as Q1.
  destruct (h_set_map ANNO_PROPERTY_MAP _ i h) as [h1 [[|]|e]]; [|exact Q1|exact Q1].
  pose proof (sb_map GET_PROPERTY_MAP (set_list (h_codes is_read_enabled i h)) i h1) as Q2.
  destruct (h_set_map GET_PROPERTY_MAP _ i h1) as [h2 [[|]|e]]; [|exact (sb_trans _ _ _ Q1 Q2)|exact (sb_trans _ _ _ Q1 Q2)].
  exact (sb_trans _ _ _ Q1 (sb_trans _ _ _ Q2 (sb_map _ _ i h2))).
Qed.
Lemma sb_loop f l : (forall h p, same_but_data h (fst (f h p))) -> forall h, same_but_data h (fst (h_loop f h l)).
Proof.
  intros Hf. induction l as [|p l IH]; intros h; [apply sb_refl|]. cbn [h_loop].
  pose proof (Hf h p) as Q. destruct (f h p) as [h1 [[rp acc]|e]]; [|exact Q].
  pose proof (IH h1) as R. destruct (h_loop f h1 l) as [h2 [[rps n]|e]]; exact (sb_trans _ _ _ Q R).
Qed.
Lemma sb_write i h p : same_but_data h (fst (h_do_write i h p)).
Proof.
  unfold h_do_write. destruct (h_get (p_code p) i h) as [l|]; [|apply sb_refl].
  destruct (h_may_write i l h); [apply sb_data|apply sb_refl].
Qed.
Lemma sb_read i h p : same_but_data h (fst (h_do_read i h p)).
Proof.
  unfold h_do_read. destruct (h_get (p_code p) i h) as [l|]; [|apply sb_refl].
  destruct (h_may_read i l h); apply sb_refl.
Qed.
Lemma sb_read_wr i h p : same_but_data h (fst (h_do_read_wr i h p)).
Proof.
  unfold h_do_read_wr. destruct (h_get (p_code p) i h) as [l|]; [|apply sb_refl].
  destruct (h_may_read i l h); apply sb_refl.
Qed.
Lemma sb_plain esv i h p : same_but_data h (fst (h_do_plain esv i h p)).
Proof. unfold h_do_plain. destruct (is_read_request esv); [apply sb_read|]. destruct (is_write_request esv); [apply sb_write|apply sb_refl]. Qed.
Lemma sb_received i m h : same_but_data h (fst (h_received i m h)).
Proof.
  unfold h_received. destruct (negb (is_request (m_ESV m))); [apply sb_refl|].
  assert (Q : same_but_data h (fst (
    let res0 := set_SEOJ (m_DEOJ m) (set_DEOJ (m_SEOJ m) (set_TID (m_TID m) new_msg)) in
      let finish (h' : heap) (res1 : msg) (accepted : Z) :=
        match response_esv (m_ESV m) (accepted =? OPC m + OPCSet m + OPCGet m)%Z with
        | None => (h', Ok None)
        | Some e => (h', Ok (Some (set_ESV e res1)))
        end in
      if is_write_read_request (m_ESV m) then
        match h_loop (h_do_write i) h (m_sets m) with
        | (h1, Err e) => (h1, Err e)
        | (h1, Ok (sets, n)) =>
          match h_loop (h_do_read_wr i) h1 (m_gets m) with
          | (h2, Err e) => (h2, Err e)
          | (h2, Ok (gets, k)) => finish h2 (set_gets gets (set_sets sets res0)) (n + k)%Z
          end
        end
      else
        match h_loop (h_do_plain (m_ESV m) i) h (m_props m) with
        | (h1, Err e) => (h1, Err e)
        | (h1, Ok (ps, n)) => finish h1 (set_props ps res0) n
        end))).
  { cbv zeta. destruct (is_write_read_request (m_ESV m)).
    - pose proof (sb_loop _ (m_sets m) (sb_write i) h) as Q1.
      destruct (h_loop (h_do_write i) h (m_sets m)) as [h1 [[sets n]|e]]; [|exact Q1].
      pose proof (sb_loop _ (m_gets m) (sb_read_wr i) h1) as Q2.
      destruct (h_loop (h_do_read_wr i) h1 (m_gets m)) as [h2 [[gets k]|e]]; [|exact (sb_trans _ _ _ Q1 Q2)].
      destruct (response_esv _ _); exact (sb_trans _ _ _ Q1 Q2).
    - pose proof (sb_loop _ (m_props m) (sb_plain (m_ESV m) i) h) as Q1.
      destruct (h_loop (h_do_plain (m_ESV m) i) h (m_props m)) as [h1 [[ps n]|e]]; [|exact Q1].
      destruct (response_esv _ _); exact Q1. }
  destruct (o_handler (ho_val (hobj_at h i))); [apply sb_refl|exact Q|exact Q|exact Q].
Qed.

(** ** Which property is found *)
Lemma add_get l i h j c : i < length (h_objs h) ->
  h_get c j (h_add_base l i h) = if (j =? i) && (op_code (hval h l) =? c)%Z then Some l else h_get c j h.
Proof.
  intros Hi. unfold h_get. rewrite add_base_obj by exact Hi. destruct (j =? i) eqn:E; cbn [andb].
  - apply Nat.eqb_eq in E. subst. cbn [ho_dict]. rewrite (dget_dset Z.eqb zeqb_eq).
    rewrite (Z.eqb_sym c). reflexivity.
  - reflexivity.
Qed.
Lemma add_sb l i h : same_but_data (h_add_base l i h) (fst (h_add l i h)).
Proof.
  unfold h_add. assert (Q : same_but_data (h_add_base l i h) (fst (h_add_super l i h))).
  { unfold h_add_super. pose proof (sb_maps i (h_add_base l i h)) as Q. destruct (h_update_maps i _) as [h2 [b|e]]; exact Q. }
  destruct (o_cls (ho_val (hobj_at h i))); [apply sb_refl|exact Q|exact Q|exact Q].
Qed.

Definition code_list (h : heap) : list Z := map (fun p => op_code (fst p)) (h_props h).
Lemma code_nth h x : x < length (h_props h) -> nth_error (code_list h) x = Some (op_code (hval h x)).
Proof.
  intros H. unfold code_list. rewrite (nth_error_nth' _ (op_code (fst nil_prop))) by (rewrite map_length; exact H).
  f_equal. rewrite (map_nth (fun p => op_code (fst p))). reflexivity.
Qed.
Lemma code_len h : length (code_list h) = length (h_props h).
Proof. apply map_length. Qed.
Lemma list_same {A} (a b : list A) : length a = length b -> (forall x, x < length a -> nth_error a x = nth_error b x) -> a = b.
Proof.
  revert b. induction a as [|x a IH]; intros [|y b] L H; cbn in L; try discriminate; [reflexivity|].
  pose proof (H 0 ltac:(cbn; lia)) as H0. cbn in H0. injection H0 as ->. f_equal. apply IH; [lia|].
  intros n Hn. exact (H (S n) ltac:(cbn; lia)).
Qed.
Lemma sb_codes a b : same_but_data a b -> code_list b = code_list a.
Proof.
  intros E. pose proof E as (_ & L & _). apply list_same; [rewrite !code_len; exact L|]. intros x. rewrite code_len. intros Hx.
  rewrite code_nth by exact Hx. rewrite code_nth by congruence. f_equal. now apply sb_code.
Qed.
Lemma replace_upd {A} (l : list A) n x : replace l n x = upd l n x.
Proof. revert n. induction l as [|y l IH]; intros [|n]; cbn; congruence. Qed.
Lemma put_codes l p h : code_list (put_val l p h) = upd (code_list h) l (op_code p).
Proof.
  apply list_same; [rewrite upd_len, !code_len; apply put_len|]. intros x. rewrite code_len, put_len. intros Hx.
  rewrite code_nth by (rewrite put_len; exact Hx). rewrite hval_put, nth_error_upd, code_len.
  destruct ((x =? l) && (l <? length (h_props h))); [reflexivity|]. now rewrite code_nth.
Qed.
Lemma add_codes l i h : l < length (h_props h) -> code_list (h_add_base l i h) = code_list h.
Proof.
  intros Hl. destruct (add_base_len l i h) as (L & _). apply list_same; [rewrite !code_len; exact L|].
  intros x. rewrite code_len. intros Hx. rewrite !code_nth by congruence. now rewrite add_base_val.
Qed.

Definition tracks (h0 h : heap) (s : register * nat) : Prop :=
  rg_codes (fst s) = code_list h /\ snd s = length (h_objs h) /\
  forall i c, h_get c i h = match last_added (fst s) i c with Some l => Some l | None => h_get c i h0 end.
Lemma tracks_sb h0 a b s : tracks h0 a s -> same_but_data a b -> tracks h0 b s.
Proof.
  intros (T1 & T2 & T3) E. split; [rewrite (sb_codes a b) by exact E; exact T1|].
  split; [destruct E as (E & _); rewrite E; exact T2|]. intros i c. rewrite (sb_get a b) by exact E. apply T3.
Qed.
Lemma hget_new o h i c : ho_dict o = [] -> h_get c i (mkheap (h_props h) (h_objs h ++ [o])) = h_get c i h.
Proof.
  intros E. unfold h_get, hobj_at. cbn [h_objs]. destruct (Nat.lt_ge_cases i (length (h_objs h))) as [H|H].
  - now rewrite app_nth1.
  - rewrite app_nth2 by exact H. rewrite (nth_overflow (h_objs h)) by exact H.
    destruct (i - length (h_objs h)) as [|n]; cbn [nth]; [rewrite E; reflexivity|]. destruct n; reflexivity.
Qed.
Lemma tracks_step h0 h s c : tracks h0 h s -> tracks h0 (fst (kstep h c)) (reg_step s c).
Proof.
  intros T. pose proof T as (T1 & T2 & T3). destruct s as [r n]. cbn [fst snd] in *.
  destruct c as [a|a|code data|l code|l data|l typ attr|i l|i code data|i m]; cbn [kstep reg_step].
  - split; [exact T1|split].
    + cbn [snd]. rewrite T2. unfold h_new, alloc_obj. cbn [fst h_objs]. rewrite app_length. cbn. lia.
    + intros i c. cbn [fst h_new alloc_obj]. rewrite hget_new by reflexivity. apply T3.
  - split; [exact T1|split].
    + cbn [snd]. rewrite T2. unfold h_new, alloc_obj. cbn [fst h_objs]. rewrite app_length. cbn. lia.
    + intros i c. cbn [fst h_new alloc_obj]. rewrite hget_new by reflexivity. apply T3.
  - split; [|split; [exact T2|]].
    + cbn [fst rg_codes alloc_prop]. rewrite T1. unfold code_list. cbn [h_props]. now rewrite map_app.
    + intros i c. exact (T3 i c).
  - destruct (l <? length (h_props h)) eqn:E; cbn [fst].
    + split; [|split; [exact T2|]].
      * cbn [fst rg_codes]. unfold h_put_prop_code. rewrite put_codes, replace_upd, T1. reflexivity.
      * intros i c. unfold h_put_prop_code. rewrite put_get. exact (T3 i c).
    + split; [|split; [exact T2|exact T3]]. cbn [fst rg_codes]. rewrite replace_upd, T1.
      apply list_same; [apply upd_len|]. intros x Hx. rewrite nth_error_upd, code_len, E, andb_false_r. reflexivity.
  - destruct (l <? length (h_props h)); cbn [fst]; [|exact T]. exact (tracks_sb _ _ _ _ T (sb_data l data h)).
  - destruct (l <? length (h_props h)) eqn:E; [|exact T]. unfold h_set_attribute.
    destruct (set_attribute typ attr (hval h l)) as [p x] eqn:Q. cbn [fst].
    assert (C : op_code p = op_code (hval h l)).
    { unfold set_attribute in Q. repeat match type of Q with (if ?b then _ else _) = _ => destruct b end; injection Q as <- _; reflexivity. }
    split; [|split; [exact T2|]].
    + cbn [fst]. rewrite put_codes, T1, C. symmetry. apply list_same; [apply upd_len|]. intros x0. rewrite upd_len. intros Hx.
      rewrite nth_error_upd. destruct ((x0 =? l) && (l <? length (code_list h))) eqn:F; [|reflexivity].
      apply andb_true_iff in F. destruct F as (F & _). apply Nat.eqb_eq in F. subst x0. symmetry. apply code_nth.
      now apply Nat.ltb_lt.
    + intros i c. rewrite put_get. exact (T3 i c).
  - destruct (l <? length (h_props h)) eqn:E.
    2:{ apply Nat.ltb_ge in E.
        assert (N : nth_error (rg_codes r) l = None) by (apply nth_error_None; rewrite T1, code_len; exact E).
        rewrite N. destruct (i <? length (h_objs h)); exact T. }
    apply Nat.ltb_lt in E. rewrite T1, code_nth by exact E. subst n.
    destruct (i <? length (h_objs h)) eqn:F; [|exact T]. apply Nat.ltb_lt in F.
    assert (Q : tracks h0 (h_add_base l i h) (mkreg (code_list h) ((i, op_code (hval h l), l) :: rg_added r), length (h_objs h))).
    { destruct (add_base_len l i h) as (_ & L). split; [cbn [fst rg_codes]; symmetry; now apply add_codes|split; [cbn [snd]; congruence|]].
      intros j c. rewrite add_get by exact F. unfold last_added. cbn [fst rg_added find snd].
      rewrite (Nat.eqb_sym i j). destruct ((j =? i) && (op_code (hval h l) =? c)%Z); [reflexivity|]. exact (T3 j c). }
    pose proof (tracks_sb _ _ _ _ Q (add_sb l i h)) as R. destruct (h_add l i h) as [h' x]. exact R.
  - destruct (i <? length (h_objs h)); [|exact T]. pose proof (tracks_sb _ _ _ _ T (sb_set code data i h)) as R.
    destruct (h_set_data code data i h). exact R.
  - destruct (i <? length (h_objs h)); [|exact T]. pose proof (tracks_sb _ _ _ _ T (sb_received i m h)) as R.
    destruct (h_received i m h). exact R.
Qed.
Lemma krun_cons h c r : fst (krun h (c :: r)) = fst (krun (fst (kstep h c)) r).
Proof. cbn [krun]. destruct (kstep h c) as [h1 a]. cbn [fst]. destruct (krun h1 r). reflexivity. Qed.
Lemma tracks_run h0 prog : forall h s, tracks h0 h s -> tracks h0 (fst (krun h prog)) (fold_left reg_step prog s).
Proof.
  induction prog as [|c r IH]; intros h s T; [exact T|]. rewrite krun_cons. cbn [fold_left]. apply IH. now apply tracks_step.
Qed.
Lemma tracks_start h : tracks h h (mkreg (code_list h) [], length (h_objs h)).
Proof. split; [reflexivity|split; [reflexivity|]]. intros i c. reflexivity. Qed.
End K.

Lemma L_C107_found : forall (PS : PySet) prog h i c,
  h_get c i (fst (krun h prog)) = match last_added (registered h prog) i c with Some l => Some l | None => h_get c i h end.
Proof.
  intros PS prog h i c. destruct (tracks_run h prog h _ (tracks_start h)) as (_ & _ & T). exact (T i c).
Qed.
Lemma L_C107_codes : forall (PS : PySet) prog h x, x < length (h_props (fst (krun h prog))) ->
  nth_error (rg_codes (registered h prog)) x = Some (op_code (hval (fst (krun h prog)) x)).
Proof.
  intros PS prog h x Hx. destruct (tracks_run h prog h _ (tracks_start h)) as (T & _).
  change (rg_codes (registered h prog)) with (rg_codes (fst (fold_left reg_step prog (mkreg (code_list h) [], length (h_objs h))))).
  rewrite T. now apply code_nth.
Qed.

(** ** Answers *)
Lemma may_read_spec i l h c : h_get c i h = Some l -> h_may_read i l h = readable h i c.
Proof.
  intros G. unfold h_may_read, readable, judge. rewrite G. destruct (h_get (op_code (hval h l)) i h); [|reflexivity].
  unfold is_read_enabled. apply allowed_enabled.
Qed.
Lemma may_write_spec i l h c : h_get c i h = Some l -> o_handler (ho_val (hobj_at h i)) = HSuper -> h_may_write i l h = writable h i c.
Proof.
  intros G H. unfold h_may_write, writable, judge. rewrite G, H. destruct (h_get (op_code (hval h l)) i h); [|reflexivity].
  unfold is_write_enabled. apply allowed_enabled.
Qed.
Lemma not_found_readable h i c : h_get c i h = None -> readable h i c = false.
Proof. intros G. unfold readable, judge. now rewrite G. Qed.
Lemma not_found_writable h i c : h_get c i h = None -> writable h i c = false.
Proof. intros G. unfold writable, judge. now rewrite G. Qed.
Lemma klen {A} (x : A) l : zlen (x :: l) = (1 + zlen l)%Z.
Proof. unfold zlen. cbn [length]. lia. Qed.
Fixpoint count (f : prop -> bool) (l : list prop) : Z :=
  match l with [] => 0%Z | p :: r => ((if f p then 1 else 0) + count f r)%Z end.
Lemma count_bounds f l : (0 <= count f l <= zlen l)%Z.
Proof. induction l as [|p l IH]; [cbn; lia|]. cbn [count]. rewrite klen. destruct (f p); lia. Qed.
Lemma count_all f l : (count f l =? zlen l)%Z = forallb f l.
Proof.
  induction l as [|p l IH]; [reflexivity|]. cbn [count forallb]. pose proof (count_bounds f l) as B. rewrite klen.
  destruct (f p); cbn [andb].
  - rewrite <- IH. destruct (count f l =? zlen l)%Z eqn:E.
    + apply Z.eqb_eq in E. apply Z.eqb_eq. lia.
    + apply Z.eqb_neq in E. apply Z.eqb_neq. lia.
  - apply Z.eqb_neq. lia.
Qed.
Lemma read_loop i h l : h_loop (h_do_read i) h l = (h, Ok (map (read_item h i) l, count (fun p => readable h i (p_code p)) l)).
Proof.
  induction l as [|p l IH]; [reflexivity|]. cbn [h_loop map count]. unfold h_do_read at 1, read_item at 1.
  destruct (h_get (p_code p) i h) as [x|] eqn:G.
  - rewrite (may_read_spec i x h (p_code p) G). destruct (readable h i (p_code p)); rewrite IH; reflexivity.
  - rewrite IH, (not_found_readable _ _ _ G). reflexivity.
Qed.
Lemma L_C107_read : forall h i m, o_handler (ho_val (hobj_at h i)) = HSuper \/ o_handler (ho_val (hobj_at h i)) = HReadOnly ->
  m_ESV m = 0x62%Z -> m_sets m = [] -> m_gets m = [] ->
  h_received i m h = (h, Ok (Some (mkmsg (m_TID m) (m_DEOJ m) (m_SEOJ m)
    (if forallb (fun p => readable h i (p_code p)) (m_props m) then 0x72%Z else 0x52%Z) (map (read_item h i) (m_props m)) [] [] None None))).
Proof.
  intros h i m Hh He Hs Hg. unfold h_received. rewrite He. unfold h_do_plain, OPC, OPCSet, OPCGet. rewrite Hs, Hg.
  change (negb (is_request 0x62)) with false. change (is_write_read_request 0x62) with false. change (is_read_request 0x62) with true.
  cbv iota. cbv zeta. rewrite read_loop. change (zlen []) with 0%Z. rewrite !Z.add_0_r, count_all.
  destruct Hh as [-> | ->]; destruct (forallb _ (m_props m)); reflexivity.
Qed.
Lemma write_loop i : forall l h, o_handler (ho_val (hobj_at h i)) = HSuper ->
  snd (h_loop (h_do_write i) h l) = Ok (map (write_item h i) l, count (fun p => writable h i (p_code p)) l).
Proof.
  induction l as [|p l IH]; intros h Hh; [reflexivity|]. cbn [h_loop map count].
  pose proof (sb_write i h p) as S1. destruct (h_do_write i h p) as [h1 r] eqn:D. cbn [fst] in S1.
  assert (Hh1 : o_handler (ho_val (hobj_at h1 i)) = HSuper).
  { destruct S1 as (E & _). unfold hobj_at. rewrite E. exact Hh. }
  specialize (IH h1 Hh1).
  assert (M : map (write_item h1 i) l = map (write_item h i) l).
  { apply map_ext. intros q. unfold write_item. rewrite (sb_get h h1), (sb_writable h h1) by exact S1. reflexivity. }
  assert (C : count (fun q => writable h1 i (p_code q)) l = count (fun q => writable h i (p_code q)) l).
  { clear - S1. induction l as [|q l IH]; [reflexivity|]. cbn [count]. rewrite IH, (sb_writable h h1) by exact S1. reflexivity. }
  rewrite M, C in IH.
  assert (R : r = Ok (write_item h i p, writable h i (p_code p))).
  { unfold h_do_write in D. unfold write_item. destruct (h_get (p_code p) i h) as [x|] eqn:G.
    - rewrite (may_write_spec i x h (p_code p) G Hh) in D. destruct (writable h i (p_code p)); congruence.
    - rewrite (not_found_writable _ _ _ G). congruence. }
  rewrite R. destruct (h_loop (h_do_write i) h1 l) as [h2 [[rps n]|e]]; cbn [snd] in *; [|discriminate].
  injection IH as -> ->. reflexivity.
Qed.
Lemma write_data i : forall l h x, o_handler (ho_val (hobj_at h i)) = HSuper ->
  (forall c y, h_get c i h = Some y -> y < length (h_props h)) ->
  op_data (hval (fst (h_loop (h_do_write i) h l)) x) = data_after h i x l.
Proof.
  induction l as [|p l IH]; intros h x Hh Hw; [reflexivity|]. cbn [h_loop]. unfold data_after. cbn [fold_left].
  pose proof (sb_write i h p) as S1. destruct (h_do_write i h p) as [h1 r] eqn:D. cbn [fst] in S1.
  assert (Hh1 : o_handler (ho_val (hobj_at h1 i)) = HSuper).
  { destruct S1 as (E & _). unfold hobj_at. rewrite E. exact Hh. }
  assert (Hw1 : forall c y, h_get c i h1 = Some y -> y < length (h_props h1)).
  { intros c y. rewrite (sb_get h h1) by exact S1. destruct S1 as (_ & L & _). rewrite L. apply Hw. }
  specialize (IH h1 x Hh1 Hw1).
  assert (exists b, r = Ok b) as ((rp & acc) & R).
  { unfold h_do_write in D. destruct (h_get (p_code p) i h); [|eexists; injection D as _ <-; reflexivity].
    destruct (h_may_write i n h); eexists; injection D as _ <-; reflexivity. }
  rewrite R.
  assert (F : fst (match h_loop (h_do_write i) h1 l with
            | (h2, Err e) => (h2, Err e)
            | (h2, Ok (rps, n)) => (h2, Ok (rp :: rps, ((if acc then 1 else 0) + n)%Z)) end) = fst (h_loop (h_do_write i) h1 l))
    by (destruct (h_loop (h_do_write i) h1 l) as [h2 [[rps n]|e]]; reflexivity).
  rewrite F, IH. unfold data_after. clear IH F R.
  assert (E : forall d, fold_left (fun d p0 => match h_get (p_code p0) i h1 with
             | Some l0 => if (l0 =? x) && writable h1 i (p_code p0) then p_data p0 else d | None => d end) l d =
           fold_left (fun d p0 => match h_get (p_code p0) i h with
             | Some l0 => if (l0 =? x) && writable h i (p_code p0) then p_data p0 else d | None => d end) l d).
  { clear - S1. induction l as [|q l IH]; intros d; [reflexivity|]. cbn [fold_left].
    rewrite (sb_get h h1), (sb_writable h h1) by exact S1. apply IH. }
  rewrite E. f_equal. unfold h_do_write in D. destruct (h_get (p_code p) i h) as [y|] eqn:G; [|injection D as <- _; reflexivity].
  rewrite (may_write_spec i y h (p_code p) G Hh) in D. destruct (writable h i (p_code p)); [|rewrite andb_false_r; injection D as <- _; reflexivity].
  assert (D1 : h1 = h_put_data y (p_data p) h) by congruence. subst h1.
  unfold h_put_data. rewrite hval_put. pose proof (Hw _ _ G) as L. apply Nat.ltb_lt in L. rewrite L, !andb_true_r, (Nat.eqb_sym x y).
  destruct (y =? x); reflexivity.
Qed.
Lemma L_C107_write : forall h i m, sound_heap h -> o_handler (ho_val (hobj_at h i)) = HSuper ->
  m_ESV m = 0x61%Z -> m_sets m = [] -> m_gets m = [] ->
  exists h', h_received i m h = (h', Ok (Some (mkmsg (m_TID m) (m_DEOJ m) (m_SEOJ m)
    (if forallb (fun p => writable h i (p_code p)) (m_props m) then 0x71%Z else 0x50%Z) (map (write_item h i) (m_props m)) [] [] None None))) /\
    same_but_data h h' /\ forall x, op_data (hval h' x) = data_after h i x (m_props m).
Proof.
  intros h i m Hs0 Hh He Hs Hg. exists (fst (h_loop (h_do_write i) h (m_props m))). split.
  - unfold h_received. rewrite He. unfold h_do_plain, OPC, OPCSet, OPCGet. rewrite Hs, Hg, Hh.
    change (negb (is_request 0x61)) with false. change (is_write_read_request 0x61) with false.
    change (is_read_request 0x61) with false. change (is_write_request 0x61) with true.
    cbv iota. cbv zeta. pose proof (write_loop i (m_props m) h Hh) as W.
    destruct (h_loop (h_do_write i) h (m_props m)) as [h' [[ps n]|e]]; cbn [snd] in W; [|discriminate]. injection W as -> ->.
    change (zlen []) with 0%Z. rewrite !Z.add_0_r, count_all.
    destruct (forallb _ (m_props m)); reflexivity.
  - split; [apply sb_loop, sb_write|]. intros x. apply write_data; [exact Hh|].
    intros c y G. destruct (Hs0 i) as (_ & W). exact (W c y (dget_in Z.eqb zeqb_eq _ _ _ G)).
Qed.

(** ** Sound heaps stay sound *)
Lemma sound_sb a b : sound_heap a -> same_but_data a b -> sound_heap b.
Proof.
  intros H (E & L & _) i. unfold hobj_at. rewrite E, L. exact (H i).
Qed.
Lemma sound_add l i h : sound_heap h -> i < length (h_objs h) -> l < length (h_props h) -> sound_heap (h_add_base l i h).
Proof.
  intros H Hi Hl j. rewrite add_base_obj by exact Hi. destruct (add_base_len l i h) as (L & _). rewrite L.
  destruct (j =? i); [|exact (H j)]. destruct (H i) as (N & W). cbn [ho_dict]. split.
  - exact (nodup_dset Z.eqb zeqb_eq _ _ _ N).
  - intros k x Q. destruct (in_locs_zset (op_code (hval h l)) l (ho_dict (hobj_at h i)) x) as [-> | Q1]; [|exact Hl|].
    + apply in_map_iff. exists (k, x). split; [reflexivity|exact Q].
    + apply in_map_iff in Q1. destruct Q1 as ((k1 & x1) & E & Q1). cbn in E. subst x1. exact (W k1 x Q1).
Qed.
Lemma sound_new o h : ho_dict o = [] -> sound_heap h -> sound_heap (mkheap (h_props h) (h_objs h ++ [o])).
Proof.
  intros E H i. unfold hobj_at. cbn [h_objs h_props]. destruct (Nat.lt_ge_cases i (length (h_objs h))) as [Q|Q].
  - rewrite app_nth1 by exact Q. exact (H i).
  - rewrite app_nth2 by exact Q. destruct (i - length (h_objs h)) as [|n]; cbn [nth]; [rewrite E|].
    + split; [constructor|]. intros k l [].
    + destruct n; (split; [constructor|]; intros k l []).
Qed.
Lemma sound_put l p h : sound_heap h -> sound_heap (put_val l p h).
Proof. intros H i. rewrite put_len. exact (H i). Qed.
Lemma sound_step (PS : PySet) h c : sound_heap h -> sound_heap (fst (kstep h c)).
Proof.
  intros H. destruct c as [a|a|code data|l code|l data|l typ attr|i l|i code data|i m]; cbn [kstep].
  - now apply (sound_new (mkho (new_object a) [])).
  - now apply (sound_new (mkho (new_super_object a) [])).
  - intros i. unfold alloc_prop. cbn [fst h_props]. rewrite app_length. destruct (H i) as (N & W). split; [exact N|].
    intros k l Q. specialize (W k l Q). lia.
  - destruct (l <? _); [apply sound_put|]; exact H.
  - destruct (l <? _); [apply sound_put|]; exact H.
  - destruct (l <? _); [|exact H]. unfold h_set_attribute. destruct (set_attribute typ attr (hval h l)). apply sound_put. exact H.
  - destruct (i <? length (h_objs h)) eqn:E; [|exact H]. destruct (l <? length (h_props h)) eqn:F; [|exact H].
    apply Nat.ltb_lt in E, F. pose proof (sound_sb _ _ (sound_add l i h H E F) (add_sb l i h)) as R. destruct (h_add l i h). exact R.
  - destruct (i <? length (h_objs h)); [|exact H]. pose proof (sound_sb _ _ H (sb_set code data i h)) as R.
    destruct (h_set_data code data i h). exact R.
  - destruct (i <? length (h_objs h)); [|exact H]. pose proof (sound_sb _ _ H (sb_received i m h)) as R.
    destruct (h_received i m h). exact R.
Qed.
Lemma L_C107_sound : forall (PS : PySet) prog h, sound_heap h -> sound_heap (fst (krun h prog)).
Proof.
  intros PS prog. induction prog as [|c r IH]; intros h H; [exact H|]. rewrite krun_cons. apply IH. now apply sound_step.
Qed.

(** ** Codes that are not changed any more *)
Lemma last_added_in r i c l : last_added r i c = Some l -> In (i, c, l) (rg_added r).
Proof.
  unfold last_added. destruct (find _ _) as [[[a b] d]|] eqn:F; [|discriminate]. apply find_some in F. destruct F as (F & E).
  cbn [fst snd] in E. apply andb_true_iff in E. destruct E as (E1 & E2). apply Nat.eqb_eq in E1. apply Z.eqb_eq in E2. subst.
  cbn [snd]. intros [= ->]. exact F.
Qed.
Definition stays (h0 h : heap) (s : register * nat) : Prop := tracks h0 h s /\ keyed h /\ sound_heap h.
Lemma keyed_sb a b : keyed a -> same_but_data a b -> keyed b.
Proof. intros H E i k l. rewrite (sb_get a b), (sb_code a b) by exact E. apply H. Qed.
Lemma get_in h i k l : h_get k i h = Some l -> In (k, l) (ho_dict (hobj_at h i)).
Proof. exact (dget_in Z.eqb zeqb_eq _ _ _). Qed.
Lemma keyed_step (PS : PySet) h0 h s c : stays h0 h s ->
  match c with KCode l _ => (forall i k, ~ In (i, k, l) (rg_added (fst s))) /\ (forall i k, h_get k i h0 <> Some l) | _ => True end ->
  keyed (fst (kstep h c)).
Proof.
  intros (T & K & W) Hc. destruct c as [a|a|code data|l code|l data|l typ attr|i l|i code data|i m]; cbn [kstep].
  - intros i k l. cbn [fst h_new alloc_obj]. rewrite hget_new by reflexivity. exact (K i k l).
  - intros i k l. cbn [fst h_new alloc_obj]. rewrite hget_new by reflexivity. exact (K i k l).
  - intros i k l Q. cbn [fst alloc_prop] in *. change (h_get k i h = Some l) in Q.
    destruct (W i) as (_ & B). specialize (B k l (get_in _ _ _ _ Q)).
    unfold hval. cbn [h_props]. rewrite app_nth1 by exact B. exact (K i k l Q).
  - destruct (l <? length (h_props h)) eqn:E; [|exact K]. cbn [fst]. intros i k x. unfold h_put_prop_code. rewrite put_get. intros Q.
    rewrite hval_put. destruct Hc as (H1 & H2). destruct T as (_ & _ & T). pose proof (T i k) as F. rewrite Q in F.
    destruct ((x =? l) && (l <? length (h_props h))) eqn:D; [|exact (K i k x Q)].
    apply andb_true_iff in D. destruct D as (D & _). apply Nat.eqb_eq in D. subst x. exfalso.
    destruct (last_added (fst s) i k) as [y|] eqn:G.
    + assert (y = l) by congruence. subst y. exact (H1 i k (last_added_in _ _ _ _ G)).
    + exact (H2 i k (eq_sym F)).
  - destruct (l <? length (h_props h)); [|exact K]. exact (keyed_sb _ _ K (sb_data l data h)).
  - destruct (l <? length (h_props h)); [|exact K]. unfold h_set_attribute.
    destruct (set_attribute typ attr (hval h l)) as [p x] eqn:Q. cbn [fst].
    assert (C : op_code p = op_code (hval h l)).
    { unfold set_attribute in Q. repeat match type of Q with (if ?b then _ else _) = _ => destruct b end; injection Q as <- _; reflexivity. }
    intros i k y. rewrite put_get, hval_put. intros G. destruct ((y =? l) && (l <? length (h_props h))) eqn:D; [|exact (K i k y G)].
    apply andb_true_iff in D. destruct D as (D & _). apply Nat.eqb_eq in D. subst y. rewrite C. exact (K i k l G).
  - destruct (i <? length (h_objs h)) eqn:E; [|exact K]. destruct (l <? length (h_props h)) eqn:F; [|exact K].
    apply Nat.ltb_lt in E, F.
    assert (Q : keyed (h_add_base l i h)).
    { intros j k x. rewrite add_get by exact E. rewrite add_base_val by exact F.
      destruct ((j =? i) && (op_code (hval h l) =? k)%Z) eqn:D; [|exact (K j k x)].
      intros Q. assert (x = l) by congruence. subst. apply andb_true_iff in D. destruct D as (_ & D). now apply Z.eqb_eq. }
    pose proof (keyed_sb _ _ Q (add_sb l i h)) as R. destruct (h_add l i h). exact R.
  - destruct (i <? length (h_objs h)); [|exact K]. pose proof (keyed_sb _ _ K (sb_set code data i h)) as R.
    destruct (h_set_data code data i h). exact R.
  - destruct (i <? length (h_objs h)); [|exact K]. pose proof (keyed_sb _ _ K (sb_received i m h)) as R.
    destruct (h_received i m h). exact R.
Qed.
Lemma keyed_run (PS : PySet) h0 prog : forall h s, stays h0 h s -> settled s prog ->
  (forall l c, In (KCode l c) prog -> forall i k, h_get k i h0 <> Some l) -> keyed (fst (krun h prog)).
Proof.
  induction prog as [|c r IH]; intros h s T S0 H; [exact (proj1 (proj2 T))|]. rewrite krun_cons. cbn [settled] in S0. destruct S0 as (S1 & S2).
  apply (IH _ (reg_step s c)); [|exact S2|intros l k Q; apply (H l k); right; exact Q].
  split; [apply tracks_step; exact (proj1 T)|split; [|apply sound_step; exact (proj2 (proj2 T))]].
  apply (keyed_step PS h0 h s c T). destruct c; try exact I. split; [exact S1|]. apply (H l code). left. reflexivity.
Qed.
Lemma L_C107_settled_partial : forall (PS : PySet) prog h, sound_heap h -> keyed h ->
  settled (mkreg (map (fun p => op_code (fst p)) (h_props h)) [], length (h_objs h)) prog ->
  (forall l c, In (KCode l c) prog -> forall i k, h_get k i h <> Some l) ->
  keyed (fst (krun h prog)) /\
  forall i c, let h' := fst (krun h prog) in
    readable h' i c = match h_get c i h' with Some l => allowed (op_get (hval h' l)) | None => false end /\
    writable h' i c = match h_get c i h' with Some l => allowed (op_set (hval h' l)) | None => false end /\
    forall right, listed h' i right c <-> exists l, h_get c i h' = Some l /\ right (hval h' l) = true.
Proof.
  intros PS prog h W K S0 H.
  assert (K' : keyed (fst (krun h prog))).
  { apply (keyed_run PS h prog h (mkreg (code_list h) [], length (h_objs h))); [|exact S0|exact H].
    split; [apply tracks_start|split; assumption]. }
  split; [exact K'|]. intros i c. cbv zeta. set (h' := fst (krun h prog)) in *.
  assert (J : judge h' i c = h_get c i h').
  { unfold judge. destruct (h_get c i h') as [l|] eqn:G; [|reflexivity]. rewrite (K' i c l G). exact G. }
  unfold readable, writable. rewrite J. split; [reflexivity|split; [reflexivity|]]. intros right. split.
  - intros (k & l & G & C & R). pose proof (K' i k l G) as E. exists l. split; [congruence|exact R].
  - intros (l & G & R). exists c, l. split; [exact G|split; [exact (K' i c l G)|exact R]].
Qed.

(** ** Property maps *)
Section Maps.
Context {PS : PySet}.
Lemma codes_listed f g h i c : NoDup (map fst (ho_dict (hobj_at h i))) -> (forall p, f p = g p) ->
  In c (h_codes f i h) <-> listed h i g c.
Proof.
  intros N E. unfold h_codes, listed. rewrite in_map_iff. split.
  - intros (p & C & Q). apply filter_In in Q. destruct Q as (Q & R). apply in_map_iff in Q. destruct Q as (l & V & Q).
    apply in_map_iff in Q. destruct Q as ((k & l1) & V1 & Q). cbn in V1. subst l1 p. exists k, l.
    split; [exact (in_dget Z.eqb zeqb_eq _ _ _ N Q)|split; [exact C|rewrite <- E; exact R]].
  - intros (k & l & G & C & R). exists (hval h l). split; [exact C|]. apply filter_In. split; [|rewrite E; exact R].
    apply in_map. apply in_map_iff. exists (k, l). split; [reflexivity|exact (get_in _ _ _ _ G)].
Qed.
Lemma few_list (P : Z -> Prop) cs : few P -> NoDup cs -> (forall c, In c cs <-> P c) ->
  length cs <= 15 /\ forallb byte_okb (zlen cs :: cs) = true.
Proof.
  intros (bs & L & B) N E.
  assert (Q : length cs <= length bs).
  { apply NoDup_incl_length; [exact N|]. intros c H. exact (proj1 (B c (proj1 (E c) H))). }
  split; [lia|]. apply forallb_forall. intros c [<-|H].
  - unfold byte_okb, zlen. apply andb_true_iff. split; [apply Z.leb_le|apply Z.ltb_lt]; lia.
  - destruct (B c (proj1 (E c) H)) as (_ & R). unfold byte_okb. apply andb_true_iff. split; [apply Z.leb_le|apply Z.ltb_lt]; lia.
Qed.
Lemma set_map_spec code (P : Z -> Prop) m i h l : h_get code i h = Some l -> l < length (h_props h) ->
  few P -> (forall c, In c m <-> P c) ->
  exists h', h_set_map code (set_list m) i h = (h', Ok true) /\ describes (op_data (hval h' l)) P /\
    forall x, x <> l -> hval h' x = hval h x.
Proof.
  intros G L F E.
  assert (E' : forall c, In c (set_list m) <-> P c) by (intros c; rewrite set_list_in; apply E).
  destruct (few_list P (set_list m) F (set_list_nodup m) E') as (L15 & B).
  unfold h_set_map. rewrite G. unfold bytes_of. rewrite B.
  assert (is_format1 (zlen (set_list m)) = true) as ->.
  { unfold is_format1, PROPERTYMAP_FORMAT1_MAX_SIZE, zlen. apply Z.leb_le. lia. }
  unfold h_set_data. rewrite G. eexists. split; [reflexivity|]. unfold h_put_data. split.
  - rewrite hval_put, Nat.eqb_refl. apply Nat.ltb_lt in L. rewrite L. cbn [andb set_op_data op_data].
    exists (set_list m). split; [reflexivity|split; [apply set_list_nodup|exact E']].
  - intros x Hx. rewrite hval_put. apply Nat.eqb_neq in Hx. rewrite Hx. reflexivity.
Qed.
End Maps.
Lemma listed_sb a b i right c : same_but_data a b ->
  (forall p q, op_get p = op_get q -> op_set p = op_set q -> op_anno p = op_anno q -> right p = right q) ->
  listed a i right c <-> listed b i right c.
Proof.
  intros E R. unfold listed. split; intros (k & l & G & C & Q); exists k, l.
  - rewrite (sb_get a b), (sb_code a b) by exact E. split; [exact G|split; [exact C|]]. rewrite <- Q.
    destruct E as (_ & _ & E). destruct (E l) as (_ & E1 & E2 & E3). apply R; congruence.
  - rewrite (sb_get a b) in G by exact E. rewrite (sb_code a b) in C by exact E. split; [exact G|split; [exact C|]]. rewrite <- Q.
    destruct E as (_ & _ & E). destruct (E l) as (_ & E1 & E2 & E3). apply R; congruence.
Qed.
Lemma describes_iff d P Q : (forall c, P c <-> Q c) -> describes d P -> describes d Q.
Proof. intros E (cs & D & N & H). exists cs. split; [exact D|split; [exact N|]]. intros c. rewrite H. apply E. Qed.
Lemma few_iff P Q : (forall c, P c <-> Q c) -> few P -> few Q.
Proof. intros E (cs & L & H). exists cs. split; [exact L|]. intros c q. apply H. now apply E. Qed.
Lemma get_ext p q : op_get p = op_get q -> op_set p = op_set q -> op_anno p = op_anno q -> may_get p = may_get q.
Proof. intros E _ _. unfold may_get. now rewrite E. Qed.
Lemma set_ext p q : op_get p = op_get q -> op_set p = op_set q -> op_anno p = op_anno q -> may_set p = may_set q.
Proof. intros _ E _. unfold may_set. now rewrite E. Qed.
Lemma tell_ext p q : op_get p = op_get q -> op_set p = op_set q -> op_anno p = op_anno q -> must_tell p = must_tell q.
Proof. intros _ _ E. unfold must_tell. now rewrite E. Qed.
Lemma L_C107_maps : forall (PS : PySet) h i l a g s, sound_heap h -> i < length (h_objs h) -> l < length (h_props h) ->
  o_cls (ho_val (hobj_at h i)) <> CObject ->
  let h' := fst (kstep h (KAdd i l)) in
  h_get 0x9D i h' = Some a -> h_get 0x9F i h' = Some g -> h_get 0x9E i h' = Some s -> a <> g -> a <> s -> g <> s ->
  few (listed h' i must_tell) -> few (listed h' i may_get) -> few (listed h' i may_set) ->
  snd (kstep h (KAdd i l)) = ABool (Ok true) /\
  describes (op_data (hval h' a)) (listed h' i must_tell) /\
  describes (op_data (hval h' g)) (listed h' i may_get) /\
  describes (op_data (hval h' s)) (listed h' i may_set).
Proof.
  intros PS h i l a g s W Hi Hl Hcls. cbv zeta. cbn [kstep].
  pose proof Hi as Hi'. pose proof Hl as Hl'. apply Nat.ltb_lt in Hi', Hl'. rewrite Hi', Hl'.
  pose proof (add_sb l i h) as SB. pose proof (sound_add l i h W Hi Hl) as W1.
  assert (A : h_add l i h = h_add_super l i h) by (unfold h_add; destruct (o_cls _); [contradiction|reflexivity..]).
  rewrite A in *. unfold h_add_super in *. set (h1 := h_add_base l i h) in *.
  set (h2 := fst (h_update_maps i h1)).
  assert (SB2 : same_but_data h1 h2) by apply sb_maps.
  assert (X : fst (let '(h', r) := match h_update_maps i h1 with (h2, Ok _) => (h2, Ok true) | (h2, Err e) => (h2, Err e) end in (h', ABool r)) = h2).
  { unfold h2. destruct (h_update_maps i h1) as [? [?|?]]; reflexivity. }
  rewrite X. intros Ga Gg Gs D1 D2 D3 Fa Fg Fs.
  rewrite (sb_get h1 h2) in Ga, Gg, Gs by exact SB2.
  destruct (W1 i) as (N & B).
  assert (La : a < length (h_props h1)) by exact (B _ _ (get_in _ _ _ _ Ga)).
  assert (Lg : g < length (h_props h1)) by exact (B _ _ (get_in _ _ _ _ Gg)).
  assert (Ls : s < length (h_props h1)) by exact (B _ _ (get_in _ _ _ _ Gs)).
  assert (Ea : forall c, In c (h_codes is_announce_required i h1) <-> listed h2 i must_tell c).
  { intros c. rewrite <- (listed_sb h1 h2) by (exact SB2 || exact tell_ext). apply codes_listed; [exact N|]. intros p.
    unfold is_announce_required, attribute_required, must_tell, REQUIRED. destruct (op_anno p =? 1)%Z; reflexivity. }
  assert (Eg : forall c, In c (h_codes is_read_enabled i h1) <-> listed h2 i may_get c).
  { intros c. rewrite <- (listed_sb h1 h2) by (exact SB2 || exact get_ext). apply codes_listed; [exact N|]. intros p.
    apply allowed_enabled. }
  assert (Es : forall c, In c (h_codes is_write_enabled i h1) <-> listed h2 i may_set c).
  { intros c. rewrite <- (listed_sb h1 h2) by (exact SB2 || exact set_ext). apply codes_listed; [exact N|]. intros p.
    apply allowed_enabled. }
  destruct (set_map_spec 0x9D%Z _ _ i h1 a Ga La Fa Ea) as (ha & Ma & Da & Oa).
  pose proof (sb_map 0x9D%Z (set_list (h_codes is_announce_required i h1)) i h1) as Sa. rewrite Ma in Sa. cbn [fst] in Sa.
  assert (Gg' : h_get 0x9F i ha = Some g) by (rewrite (sb_get h1 ha) by exact Sa; exact Gg).
  assert (Lg' : g < length (h_props ha)) by (destruct Sa as (_ & L & _); rewrite L; exact Lg).
  destruct (set_map_spec 0x9F%Z _ _ i ha g Gg' Lg' Fg Eg) as (hg & Mg & Dg & Og).
  pose proof (sb_map 0x9F%Z (set_list (h_codes is_read_enabled i h1)) i ha) as Sg. rewrite Mg in Sg. cbn [fst] in Sg.
  assert (Gs' : h_get 0x9E i hg = Some s) by (rewrite (sb_get ha hg) by exact Sg; rewrite (sb_get h1 ha) by exact Sa; exact Gs).
  assert (Ls' : s < length (h_props hg)) by (destruct Sa as (_ & L & _); destruct Sg as (_ & L' & _); rewrite L', L; exact Ls).
  destruct (set_map_spec 0x9E%Z _ _ i hg s Gs' Ls' Fs Es) as (hs & Ms & Ds & Os).
  assert (U : h_update_maps i h1 = (hs, Ok true)).
  { unfold h_update_maps. cbv zeta. unfold ANNO_PROPERTY_MAP, GET_PROPERTY_MAP, SET_PROPERTY_MAP. rewrite Ma, Mg. exact Ms. }
  assert (H2 : h2 = hs) by (unfold h2; now rewrite U).
  rewrite U. split; [reflexivity|].
  split; [|split]; rewrite H2 at 1.
  - rewrite Os, Og by congruence. exact Da.
  - rewrite Os by congruence. exact Dg.
  - exact Ds.
Qed.

(** ** Copies *)
Definition copy_into (j : nat) (src : list nat) (h : heap) : heap :=
  fold_left (fun h l => let '(h, l') := deepcopy l h in h_add_base l' j h) src h.
Definition copying (h0 : heap) (j : nat) (done : list nat) (h : heap) : Prop :=
  j < length (h_objs h) /\ length (h_props h0) <= length (h_props h) /\
  (forall x, x < length (h_props h0) -> hval h x = hval h0 x) /\
  (forall y, y <> j -> y < j -> hobj_at h y = hobj_at h0 y) /\
  (forall c, match h_get c j h with
             | Some y => y < length (h_props h) /\ last_with c (map (hval h0) done) = Some (hval h y)
             | None => last_with c (map (hval h0) done) = None
             end).
Lemma last_with_snoc c l p : last_with c (l ++ [p]) = if (op_code p =? c)%Z then Some p else last_with c l.
Proof. unfold last_with. rewrite rev_app_distr. cbn [rev app find]. reflexivity. Qed.
Lemma copying_step h0 j done h l : copying h0 j done h -> l < length (h_props h0) ->
  copying h0 j (done ++ [l]) (let '(h, l') := deepcopy l h in h_add_base l' j h).
Proof.
  intros (A & B & C & D & E) Hl. pose proof (deepcopy_spec l h ltac:(lia)) as Q. destruct (deepcopy l h) as [h1 l'].
  destruct Q as (G & (L1 & L2) & V). destruct (grows_len _ _ G) as (G1 & G2). destruct (add_base_len l' j h1) as (P1 & P2).
  assert (Vl : hval h1 l' = hval h0 l) by (rewrite V; now apply C).
  split; [lia|split; [lia|split; [|split]]].
  - intros x Hx. rewrite add_base_val by exact L2. rewrite (grows_val h h1) by (exact G || lia). now apply C.
  - intros y Hy Hj. rewrite add_base_obj by lia. apply Nat.eqb_neq in Hy. rewrite Hy. rewrite (grows_at h h1) by (exact G || lia).
    apply D; [now apply Nat.eqb_neq|exact Hj].
  - intros c. rewrite add_get by lia. rewrite Nat.eqb_refl. cbn [andb]. rewrite map_app. cbn [map]. rewrite last_with_snoc, Vl.
    destruct (op_code (hval h0 l) =? c)%Z.
    + rewrite P1, add_base_val by exact L2. split; [exact L2|]. now rewrite Vl.
    + specialize (E c). assert (H1 : h_get c j h1 = h_get c j h) by (unfold h_get; rewrite (grows_at h h1) by (exact G || lia); reflexivity).
      rewrite H1. destruct (h_get c j h) as [y|]; [|exact E]. destruct E as (E1 & E2). rewrite P1, add_base_val by exact L2.
      rewrite (grows_val h h1) by (exact G || lia). split; [lia|exact E2].
Qed.
Lemma copying_all h0 j src : (forall l, In l src -> l < length (h_props h0)) -> forall done h, copying h0 j done h ->
  copying h0 j (done ++ src) (copy_into j src h).
Proof.
  induction src as [|l r IH]; intros H done h K; [rewrite app_nil_r; exact K|]. cbn [copy_into fold_left].
  replace (done ++ l :: r) with ((done ++ [l]) ++ r) by (rewrite <- app_assoc; reflexivity).
  apply IH; [intros x Hx; apply H; right; exact Hx|]. apply copying_step; [exact K|]. apply H. left. reflexivity.
Qed.
Lemma objval_add l j h x : j < length (h_objs h) -> ho_val (hobj_at (h_add_base l j h) x) = ho_val (hobj_at h x).
Proof. intros H. rewrite add_base_obj by exact H. destruct (x =? j) eqn:E; [|reflexivity]. apply Nat.eqb_eq in E. now subst. Qed.
Lemma objval_copy j src : forall h, j < length (h_objs h) -> (forall l, In l src -> l < length (h_props h)) ->
  ho_val (hobj_at (copy_into j src h) j) = ho_val (hobj_at h j).
Proof.
  induction src as [|l r IH]; intros h Hj Hs; [reflexivity|]. cbn [copy_into fold_left].
  pose proof (deepcopy_spec l h (Hs l (or_introl eq_refl))) as Q. destruct (deepcopy l h) as [h1 l'].
  destruct Q as (G & (L1 & L2) & V). destruct (grows_len _ _ G) as (G1 & G2). destruct (add_base_len l' j h1) as (P1 & P2).
  change (ho_val (hobj_at (copy_into j r (h_add_base l' j h1)) j) = ho_val (hobj_at h j)).
  rewrite IH; [|lia|intros x Hx; specialize (Hs x (or_intror Hx)); lia].
  rewrite objval_add by lia. rewrite (grows_at h h1) by (exact G || lia). reflexivity.
Qed.
Lemma L_C107_copy : forall h i, sound_heap h -> i < length (h_objs h) ->
  let '(h', j) := h_copy_object i h in
  j = length (h_objs h) /\
  o_code (ho_val (hobj_at h' j)) = o_code (ho_val (hobj_at h i)) /\ o_name (ho_val (hobj_at h' j)) = o_name (ho_val (hobj_at h i)) /\
  (forall c, option_map (hval h') (h_get c j h') = last_with c (map (hval h) (map snd (ho_dict (hobj_at h i))))) /\
  (forall x, x < length (h_props h) -> hval h' x = hval h x) /\
  (forall y, y < length (h_objs h) -> hobj_at h' y = hobj_at h y) /\
  (forall c y, h_get c j h' = Some y -> length (h_props h) <= y).
Proof.
  intros h i W Hi. unfold h_copy_object, h_new, alloc_obj. cbv zeta.
  set (o := hobj_at h i). set (v := set_o_name _ _). set (h1 := mkheap (h_props h) (h_objs h ++ [mkho v []])).
  change (let '(h', j) := (copy_into (length (h_objs h)) (map snd (ho_dict o)) h1, length (h_objs h)) in
    j = length (h_objs h) /\ o_code (ho_val (hobj_at h' j)) = o_code (ho_val o) /\ o_name (ho_val (hobj_at h' j)) = o_name (ho_val o) /\
    (forall c, option_map (hval h') (h_get c j h') = last_with c (map (hval h) (map snd (ho_dict o)))) /\
    (forall x, x < length (h_props h) -> hval h' x = hval h x) /\
    (forall y, y < length (h_objs h) -> hobj_at h' y = hobj_at h y) /\
    (forall c y, h_get c j h' = Some y -> length (h_props h) <= y)).
  set (j := length (h_objs h)). cbv iota.
  assert (Hs : forall l, In l (map snd (ho_dict o)) -> l < length (h_props h)).
  { intros l Q. apply in_map_iff in Q. destruct Q as ((k & x) & E & Q). cbn in E. subst x. destruct (W i) as (_ & B). exact (B k l Q). }
  assert (Hj : j < length (h_objs h1)) by (cbn [h1 h_objs]; unfold h1; cbn [h_objs]; rewrite app_length; cbn; unfold j; lia).
  assert (At : hobj_at h1 j = mkho v []).
  { unfold hobj_at, h1. cbn [h_objs]. rewrite app_nth2 by (unfold j; lia). unfold j. rewrite Nat.sub_diag. reflexivity. }
  assert (K0 : copying h j [] h1).
  { split; [exact Hj|split; [apply Nat.le_refl|split; [reflexivity|split]]].
    - intros y _ Hy. unfold hobj_at, h1. cbn [h_objs]. rewrite app_nth1 by exact Hy. reflexivity.
    - intros c. unfold h_get. rewrite At. reflexivity. }
  pose proof (copying_all h j (map snd (ho_dict o)) Hs [] h1 K0) as K. cbn [app] in K.
  assert (V : ho_val (hobj_at (copy_into j (map snd (ho_dict o)) h1) j) = v) by (rewrite objval_copy; [now rewrite At|exact Hj|exact Hs]).
  assert (NEW : forall c y, h_get c j (copy_into j (map snd (ho_dict o)) h1) = Some y -> length (h_props h) <= y).
  { assert (Q : forall src hh, j < length (h_objs hh) -> length (h_props h) <= length (h_props hh) ->
      (forall l, In l src -> l < length (h_props hh)) ->
      (forall c y, h_get c j hh = Some y -> length (h_props h) <= y) ->
      forall c y, h_get c j (copy_into j src hh) = Some y -> length (h_props h) <= y).
    { induction src as [|l r IH]; intros hh Q1 Q2 Q3 Q4; [exact Q4|]. cbn [copy_into fold_left].
      pose proof (deepcopy_spec l hh (Q3 l (or_introl eq_refl))) as Q. destruct (deepcopy l hh) as [hh1 l'].
      destruct Q as (G & (L1 & L2) & _). destruct (grows_len _ _ G) as (G1 & G2). destruct (add_base_len l' j hh1) as (P1 & P2).
      apply (IH (h_add_base l' j hh1)); [lia|lia|intros x Hx; specialize (Q3 x (or_intror Hx)); lia|].
      intros c y. rewrite add_get by lia. destruct ((j =? j) && (op_code (hval hh1 l') =? c)%Z); [intros [= <-]; lia|].
      unfold h_get. rewrite (grows_at hh hh1) by (exact G || lia). apply Q4. }
    apply Q; [exact Hj|apply Nat.le_refl|exact Hs|]. intros c y. unfold h_get. rewrite At. discriminate. }
  destruct K as (_ & _ & K1 & K2 & K3).
  split; [reflexivity|]. rewrite V. split; [reflexivity|split; [reflexivity|split; [|split; [exact K1|split; [|exact NEW]]]]].
  - intros c. specialize (K3 c). destruct (h_get c j _) as [y|]; cbn [option_map]; [destruct K3 as (_ & K3)|]; now rewrite K3.
  - intros y Hy. apply K2; unfold j; lia.
Qed.

(** ** Findings *)
Lemma code_step (PS : PySet) h l c : l < length (h_props h) -> fst (kstep h (KCode l c)) = h_put_prop_code l c h.
Proof. intros H. cbn [kstep]. apply Nat.ltb_lt in H. rewrite H. reflexivity. Qed.
Lemma recode_get l c h k i : h_get k i (h_put_prop_code l c h) = h_get k i h.
Proof. apply put_get. Qed.
Lemma recode_val l c h x : l < length (h_props h) ->
  hval (h_put_prop_code l c h) x = if x =? l then set_op_code c (hval h l) else hval h x.
Proof. intros H. unfold h_put_prop_code. rewrite hval_put. apply Nat.ltb_lt in H. rewrite H, andb_true_r. reflexivity. Qed.
Lemma L_C107_rights_refuted : forall (PS : PySet) h i a b ca cb d m, sound_heap h -> o_handler (ho_val (hobj_at h i)) = HSuper ->
  h_get ca i h = Some a -> h_get cb i h = Some b -> a <> b -> op_set (hval h a) = 0%Z -> op_set (hval h b) = 1%Z ->
  m_ESV m = 0x61%Z -> m_props m = [mkprop ca d] -> m_sets m = [] -> m_gets m = [] ->
  exists h', h_received i m (fst (kstep h (KCode a cb))) =
      (h', Ok (Some (mkmsg (m_TID m) (m_DEOJ m) (m_SEOJ m) 0x71 [mkprop ca []] [] [] None None))) /\
    op_data (hval h' a) = d /\ op_set (hval h' a) = 0%Z.
Proof.
  intros PS h i a b ca cb d m W Hh Ga Gb N Pa Pb He Hp Hs Hg.
  assert (La : a < length (h_props h)) by (destruct (W i) as (_ & B); exact (B _ _ (get_in _ _ _ _ Ga))).
  pose proof (sound_step PS h (KCode a cb) W) as W1. rewrite code_step in * by exact La.
  set (h1 := h_put_prop_code a cb h) in *.
  assert (Hh1 : o_handler (ho_val (hobj_at h1 i)) = HSuper) by exact Hh.
  destruct (L_C107_write h1 i m W1 Hh1 He Hs Hg) as (h' & R & SB & D). exists h'.
  assert (J : writable h1 i ca = true).
  { unfold writable, judge, h1. rewrite !recode_get, Ga. rewrite recode_val by exact La. rewrite Nat.eqb_refl. cbn [set_op_code op_code].
    rewrite recode_get, Gb. rewrite recode_val by exact La. assert (E : (b =? a) = false) by (apply Nat.eqb_neq; congruence). rewrite E, Pb. reflexivity. }
  assert (G1 : h_get ca i h1 = Some a) by (unfold h1; rewrite recode_get; exact Ga).
  split; [|split].
  - rewrite R, Hp. cbn [forallb map p_code]. rewrite J. unfold write_item. cbn [p_code p_data]. rewrite G1, J. reflexivity.
  - rewrite D, Hp. unfold data_after. cbn [fold_left p_code p_data]. rewrite G1, Nat.eqb_refl, J. reflexivity.
  - destruct SB as (_ & _ & E). destruct (E a) as (_ & _ & E1 & _). rewrite E1. unfold h1. rewrite recode_val by exact La.
    rewrite Nat.eqb_refl. exact Pa.
Qed.
Lemma L_C107_lost_refuted : forall (PS : PySet) h i a ca c m, sound_heap h ->
  o_handler (ho_val (hobj_at h i)) = HSuper \/ o_handler (ho_val (hobj_at h i)) = HReadOnly ->
  h_get ca i h = Some a -> h_get c i h = None -> m_ESV m = 0x62%Z -> m_sets m = [] -> m_gets m = [] ->
  forall k, k = ca \/ k = c -> m_props m = [mkprop k []] ->
    snd (h_received i m (fst (kstep h (KCode a c)))) =
      Ok (Some (mkmsg (m_TID m) (m_DEOJ m) (m_SEOJ m) 0x52 [mkprop k []] [] [] None None)).
Proof.
  intros PS h i a ca c m W Hh Ga Gc He Hs Hg k Hk Hp.
  assert (La : a < length (h_props h)) by (destruct (W i) as (_ & B); exact (B _ _ (get_in _ _ _ _ Ga))).
  rewrite code_step by exact La. set (h1 := h_put_prop_code a c h).
  assert (Hh1 : o_handler (ho_val (hobj_at h1 i)) = HSuper \/ o_handler (ho_val (hobj_at h1 i)) = HReadOnly) by exact Hh.
  rewrite (L_C107_read h1 i m Hh1 He Hs Hg). cbn [snd]. rewrite Hp. cbn [forallb map p_code].
  assert (J : readable h1 i k = false).
  { unfold readable, judge, h1. rewrite recode_get. destruct Hk as [-> | ->]; [|rewrite Gc; reflexivity].
    rewrite Ga, recode_val by exact La. rewrite Nat.eqb_refl. cbn [set_op_code op_code]. rewrite recode_get, Gc. reflexivity. }
  rewrite J. cbn [andb]. unfold read_item. cbn [p_code]. rewrite J. destruct (h_get k i h1); reflexivity.
Qed.
Lemma L_C107_maps_refuted : forall (PS : PySet) h i a ca c l, sound_heap h -> i < length (h_objs h) -> l < length (h_props h) ->
  o_cls (ho_val (hobj_at h i)) <> CObject -> h_get ca i h = Some a -> h_get c i h = None -> may_get (hval h a) = true ->
  l <> a -> op_code (hval h l) <> c -> op_code (hval h l) <> ca ->
  let h' := fst (krun h [KCode a c; KAdd i l]) in
  forall t g s, h_get 0x9D i h' = Some t -> h_get 0x9F i h' = Some g -> h_get 0x9E i h' = Some s -> t <> g -> t <> s -> g <> s ->
  few (listed h' i must_tell) -> few (listed h' i may_get) -> few (listed h' i may_set) ->
  h_get c i h' = None /\ exists cs, op_data (hval h' g) = zlen cs :: cs /\ In c cs.
Proof.
  intros PS h i a ca c l W Hi Hl Hcls Ga Gc Ma Nl Nc Nca. cbv zeta. rewrite !krun_cons. cbn [krun fst].
  assert (La : a < length (h_props h)) by (destruct (W i) as (_ & B); exact (B _ _ (get_in _ _ _ _ Ga))).
  pose proof (sound_step PS h (KCode a c) W) as W1. rewrite code_step in * by exact La. set (h1 := h_put_prop_code a c h) in *.
  intros t g s Gt Gg Gs D1 D2 D3 F1 F2 F3.
  assert (Hl1 : l < length (h_props h1)) by (unfold h1, h_put_prop_code; rewrite put_len; exact Hl).
  destruct (L_C107_maps PS h1 i l t g s W1 Hi Hl1 Hcls Gt Gg Gs D1 D2 D3 F1 F2 F3) as (_ & _ & (cs & E & _ & Q) & _).
  assert (Cl : op_code (hval h1 l) = op_code (hval h l)).
  { unfold h1. rewrite recode_val by exact La. assert (X : (l =? a) = false) by (now apply Nat.eqb_neq). rewrite X. reflexivity. }
  assert (Q2 : forall k, h_get k i (fst (kstep h1 (KAdd i l))) = if (op_code (hval h l) =? k)%Z then Some l else h_get k i h).
  { intros k. cbn [kstep]. pose proof Hi as Hi'. apply Nat.ltb_lt in Hi'. apply Nat.ltb_lt in Hl1.
    change (length (h_objs h1)) with (length (h_objs h)). rewrite Hi', Hl1. pose proof (add_sb l i h1) as SB.
    destruct (h_add l i h1) as [h2 r]. cbn [fst] in *. rewrite (sb_get _ _ k i SB), add_get by exact Hi. rewrite Nat.eqb_refl, Cl. cbn [andb].
    unfold h1. rewrite recode_get. reflexivity. }
  split.
  - rewrite Q2. assert (X : (op_code (hval h l) =? c)%Z = false) by (now apply Z.eqb_neq). rewrite X. exact Gc.
  - exists cs. split; [exact E|]. apply Q. exists ca, a. split.
    + rewrite Q2. assert (X : (op_code (hval h l) =? ca)%Z = false) by (now apply Z.eqb_neq). rewrite X. exact Ga.
    + cbn [kstep]. pose proof Hi as Hi'. apply Nat.ltb_lt in Hi'. pose proof Hl1 as Hl2. apply Nat.ltb_lt in Hl2.
      change (length (h_objs h1)) with (length (h_objs h)). rewrite Hi', Hl2. pose proof (add_sb l i h1) as SB.
      destruct (h_add l i h1) as [h2 r]. cbn [fst] in *. destruct SB as (_ & _ & SB). destruct (SB a) as (S1 & S2 & _).
      rewrite add_base_val in S1, S2 by exact Hl1. unfold h1 in S1, S2. rewrite recode_val in S1, S2 by exact La. rewrite Nat.eqb_refl in S1, S2.
      cbn [set_op_code op_code op_get] in S1, S2. split; [exact S1|]. unfold may_get in *. rewrite S2. exact Ma.
Qed.
Lemma L_C107_copy_refuted : forall (PS : PySet) h i a ca c, sound_heap h -> keyed h -> i < length (h_objs h) ->
  h_get ca i h = Some a -> ca <> c ->
  let h1 := fst (kstep h (KCode a c)) in
  let '(h', j) := h_copy_object i h1 in
  h_get ca i h' = Some a /\ h_get ca j h' = None /\ h_get c j h' <> None.
Proof.
  intros PS h i a ca c W K Hi Ga N. cbv zeta.
  assert (La : a < length (h_props h)) by (destruct (W i) as (_ & B); exact (B _ _ (get_in _ _ _ _ Ga))).
  pose proof (sound_step PS h (KCode a c) W) as W1. rewrite code_step in * by exact La. set (h1 := h_put_prop_code a c h) in *.
  pose proof (L_C107_copy h1 i W1 Hi) as Q. destruct (h_copy_object i h1) as [h' j].
  destruct Q as (_ & _ & _ & Q & _ & Q2 & _).
  assert (V : forall k x, In (k, x) (ho_dict (hobj_at h1 i)) -> op_code (hval h1 x) = if x =? a then c else k).
  { intros k x H. unfold h1. rewrite recode_val by exact La. destruct (x =? a); [reflexivity|]. apply (K i).
    apply (in_dget Z.eqb zeqb_eq); [exact (proj1 (W i))|exact H]. }
  split; [|split].
  - unfold h_get. rewrite (Q2 i Hi). exact Ga.
  - specialize (Q ca). destruct (h_get ca j h') as [y|]; [|reflexivity]. cbn [option_map] in Q. exfalso. symmetry in Q.
    unfold last_with in Q. apply find_some in Q. destruct Q as (Q & E). apply Z.eqb_eq in E. apply in_rev in Q.
    apply in_map_iff in Q. destruct Q as (x & E1 & Q). apply in_map_iff in Q. destruct Q as ((k & x1) & E2 & Q). cbn in E2. subst x1.
    rewrite <- E1, (V k x Q) in E. destruct (x =? a) eqn:X; [congruence|]. subst k.
    pose proof (in_dget Z.eqb zeqb_eq _ _ _ (proj1 (W i)) Q) as G. unfold h_get in Ga. rewrite Ga in G. assert (a = x) by congruence.
    apply Nat.eqb_neq in X. congruence.
  - intros E. specialize (Q c). rewrite E in Q. cbn [option_map] in Q. symmetry in Q. unfold last_with in Q.
    pose proof (find_none _ _ Q (hval h1 a)) as F. cbv beta in F.
    rewrite (V ca a (get_in _ _ _ _ Ga)), Nat.eqb_refl in F. rewrite Z.eqb_refl in F. discriminate F.
    apply -> in_rev. apply in_map. apply in_map_iff. exists (ca, a). split; [reflexivity|exact (get_in _ _ _ _ Ga)].
Qed.
Lemma L_C107_again : forall (PS : PySet) h i a ca c, sound_heap h -> i < length (h_objs h) -> h_get ca i h = Some a -> ca <> c ->
  let h' := fst (krun h [KCode a c; KAdd i a]) in
  h_get ca i h' = Some a /\ h_get c i h' = Some a /\
  readable h' i ca = allowed (op_get (hval h a)) /\ readable h' i c = allowed (op_get (hval h a)) /\
  writable h' i ca = allowed (op_set (hval h a)) /\ writable h' i c = allowed (op_set (hval h a)).
Proof.
  intros PS h i a ca c W Hi Ga N. cbv zeta. rewrite !krun_cons. cbn [krun fst].
  assert (La : a < length (h_props h)) by (destruct (W i) as (_ & B); exact (B _ _ (get_in _ _ _ _ Ga))).
  rewrite code_step by exact La. set (h1 := h_put_prop_code a c h).
  assert (La1 : a < length (h_props h1)) by (unfold h1, h_put_prop_code; rewrite put_len; exact La).
  cbn [kstep]. pose proof Hi as Hi'. apply Nat.ltb_lt in Hi'. pose proof La1 as La2. apply Nat.ltb_lt in La2.
  change (length (h_objs h1)) with (length (h_objs h)). rewrite Hi', La2. pose proof (add_sb a i h1) as SB.
  destruct (h_add a i h1) as [h2 r]. cbn [fst] in *.
  assert (V1 : hval h1 a = set_op_code c (hval h a)) by (unfold h1; rewrite recode_val by exact La; rewrite Nat.eqb_refl; reflexivity).
  assert (G : forall k, h_get k i h2 = if (c =? k)%Z then Some a else h_get k i h).
  { intros k. rewrite (sb_get _ _ k i SB), add_get by exact Hi. rewrite Nat.eqb_refl, V1. cbn [andb set_op_code op_code]. reflexivity. }
  assert (Gca : h_get ca i h2 = Some a) by (rewrite G; destruct (c =? ca)%Z; [reflexivity|exact Ga]).
  assert (Gc : h_get c i h2 = Some a) by (rewrite G, Z.eqb_refl; reflexivity).
  destruct SB as (_ & _ & SB). destruct (SB a) as (S1 & S2 & S3 & _). rewrite add_base_val, V1 in S1, S2, S3 by exact La1.
  cbn [set_op_code op_code op_get op_set] in S1, S2, S3.
  split; [exact Gca|split; [exact Gc|]]. unfold readable, writable, judge. rewrite Gca, Gc, S1, Gc, S2, S3. repeat split.
Qed.

(** *** Assignments *)
Lemma upd_nth_same {A} (l : list A) i v : i < length l -> nth_error (upd l i v) i = Some v.
Proof. revert i. induction l as [|a l IH]; intros [|i] L; cbn in *; try lia; [reflexivity|]. apply IH. lia. Qed.
Lemma upd_nth_other {A} (l : list A) i v j : j <> i -> nth_error (upd l i v) j = nth_error l j.
Proof. revert i j. induction l as [|a l IH]; intros [|i] [|j] N; cbn; try reflexivity; try lia. apply IH. lia. Qed.
Lemma L_C107_assign : forall (PS : PySet) h l p own, nth_error (h_props h) l = Some (p, own) ->
  (forall c, let h' := fst (kstep h (KCode l c)) in
     h_objs h' = h_objs h /\ nth_error (h_props h') l = Some (mkoprop c (op_data p) (op_get p) (op_set p) (op_anno p), own) /\
     forall x, x <> l -> nth_error (h_props h') x = nth_error (h_props h) x) /\
  (forall d, let h' := fst (kstep h (KData l d)) in
     h_objs h' = h_objs h /\ nth_error (h_props h') l = Some (mkoprop (op_code p) d (op_get p) (op_set p) (op_anno p), own) /\
     forall x, x <> l -> nth_error (h_props h') x = nth_error (h_props h) x).
Proof.
  intros PS h l p own E. assert (L : l < length (h_props h)) by (apply nth_error_Some; congruence). apply Nat.ltb_lt in L as LB.
  split; intros c; cbn [kstep]; rewrite LB; cbn [fst].
  - unfold h_put_prop_code, put_val, hval, howner. rewrite !(nth_error_nth _ _ nil_prop E). cbn. split; [reflexivity|]. split; [rewrite upd_nth_same by exact L; reflexivity|]. intros x N. apply upd_nth_other, N.
  - unfold h_put_data, put_val, hval, howner. rewrite !(nth_error_nth _ _ nil_prop E). cbn. split; [reflexivity|]. split; [rewrite upd_nth_same by exact L; reflexivity|]. intros x N. apply upd_nth_other, N.
Qed.
