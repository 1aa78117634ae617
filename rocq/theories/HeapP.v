From Coq Require Import Permutation.
From Verif Require Import PyBase BytesM EsvM MsgM PropM ObjM DbData DbM DictP MapP HeapM SpecHeap.
Local Open Scope nat_scope.

Definition locs (h : heap) (i : nat) : list nat := map snd (ho_dict (hobj_at h i)).

Lemma upd_len {A} (l : list A) i v : length (upd l i v) = length l.
Proof. revert i; induction l as [|x l IH]; intros [|i]; cbn; auto. Qed.
Lemma nth_upd {A} (l : list A) i j v d : nth j (upd l i v) d = if (j =? i) && (i <? length l) then v else nth j l d.
Proof.
  revert i j; induction l as [|x l IH]; intros i j.
  - cbn. destruct (j =? i); reflexivity.
  - destruct i as [|i], j as [|j]; cbn; auto. rewrite IH. reflexivity.
Qed.
Lemma nth_upd_same {A} (l : list A) i v d : i < length l -> nth i (upd l i v) d = v.
Proof. intros H. rewrite nth_upd, Nat.eqb_refl. apply Nat.ltb_lt in H. now rewrite H. Qed.
Lemma nth_upd_other {A} (l : list A) i j v d : j <> i -> nth j (upd l i v) d = nth j l d.
Proof. intros H. rewrite nth_upd. apply Nat.eqb_neq in H. now rewrite H. Qed.

Lemma hval_put_prop l p h x : l < length (h_props h) -> hval (put_prop l p h) x = if x =? l then fst p else hval h x.
Proof.
  intros H. unfold hval, put_prop. cbn [h_props]. rewrite nth_upd. apply Nat.ltb_lt in H. rewrite H, andb_true_r.
  destruct (x =? l); reflexivity.
Qed.

(** Only properties of [i] change. *)
Definition touch (i : nat) (h h' : heap) : Prop :=
  h_objs h' = h_objs h /\ length (h_props h') = length (h_props h) /\
  (forall l, ~ In l (locs h i) -> hval h' l = hval h l).
Definition okobj (h : heap) (i : nat) : Prop :=
  i < length (h_objs h) /\ NoDup (locs h i) /\ (forall l, In l (locs h i) -> l < length (h_props h)).

Lemma touch_refl i h : touch i h h.
Proof. repeat split. Qed.
Lemma touch_at i h h' j : touch i h h' -> hobj_at h' j = hobj_at h j.
Proof. intros (E & _). unfold hobj_at. now rewrite E. Qed.
Lemma touch_locs i h h' j : touch i h h' -> locs h' j = locs h j.
Proof. intros H. unfold locs. now rewrite (touch_at _ _ _ j H). Qed.
Lemma touch_trans i h h1 h2 : touch i h h1 -> touch i h1 h2 -> touch i h h2.
Proof.
  intros H1 H2. pose proof (touch_locs _ _ _ i H1) as E. destruct H1 as (A1 & B1 & C1), H2 as (A2 & B2 & C2).
  repeat split; try congruence. intros l Hl. rewrite C2 by congruence. auto.
Qed.
Lemma touch_ok i h h' j : touch i h h' -> okobj h j -> okobj h' j.
Proof.
  intros T (A & B & C). unfold okobj. rewrite (touch_locs _ _ _ j T).
  destruct T as (E1 & E2 & _). rewrite E1, E2. auto.
Qed.

Definition look (h : heap) (d : list (Z * nat)) : list (Z * oprop) := map (fun kl => (fst kl, hval h (snd kl))) d.
Lemma look_get h k d : zget k (look h d) = option_map (hval h) (zget k d).
Proof.
  induction d as [|[a b] d IH]; [reflexivity|]. cbn [look map dget fst snd].
  destruct (k =? a)%Z; [reflexivity|exact IH].
Qed.
Lemma look_set h k l d : look h (zset k l d) = zset k (hval h l) (look h d).
Proof.
  induction d as [|[a b] d IH]; [reflexivity|]. cbn [look map dset fst snd].
  destruct (k =? a)%Z; [reflexivity|]. cbn [map fst snd]. f_equal. exact IH.
Qed.
Lemma look_ext h h' d : (forall l, In l (map snd d) -> hval h' l = hval h l) -> look h' d = look h d.
Proof.
  intros H. apply map_ext_in. intros [k l] Hi. cbn [fst snd]. f_equal. apply H. now apply (in_map snd) in Hi.
Qed.
Lemma look_put h k l p d : NoDup (map snd d) -> zget k d = Some l -> l < length (h_props h) ->
  look (put_val l p h) d = zset k p (look h d).
Proof.
  intros Hn Hg Hl. induction d as [|[a b] d IH]; [discriminate|].
  cbn [map snd] in Hn. inversion Hn as [|? ? Ha Hd]; subst.
  cbn [look map dset fst snd]. cbn [dget] in Hg. unfold put_val at 1. rewrite hval_put_prop by exact Hl.
  destruct (k =? a)%Z eqn:E.
  - assert (b = l) by congruence. subst b. rewrite Nat.eqb_refl. cbn [fst].
    assert (a = k) by (now apply Z.eqb_eq in E). subst a. f_equal.
    apply look_ext. intros x Hx. unfold put_val. rewrite hval_put_prop by exact Hl.
    destruct (x =? l) eqn:E2; [|reflexivity]. apply Nat.eqb_eq in E2. subst. contradiction.
  - destruct (b =? l) eqn:E2.
    + apply Nat.eqb_eq in E2. subst b. exfalso. apply Ha. apply dget_in in Hg; [|exact zeqb_eq].
      now apply (in_map snd) in Hg.
    + f_equal. now apply IH.
Qed.
Lemma view_look h i : view h i = set_o_props (look h (ho_dict (hobj_at h i))) (ho_val (hobj_at h i)).
Proof. reflexivity. Qed.
Lemma view_get h i k : get_property k (view h i) = option_map (hval h) (h_get k i h).
Proof. unfold get_property. rewrite view_look. cbn [o_props set_o_props]. apply look_get. Qed.
Lemma view_ext h h' i : hobj_at h' i = hobj_at h i -> (forall l, In l (locs h i) -> hval h' l = hval h l) ->
  view h' i = view h i.
Proof. intros E H. rewrite !view_look, E. f_equal. now apply look_ext. Qed.

Lemma get_loc h i k l : h_get k i h = Some l -> In l (locs h i).
Proof. intros H. apply dget_in in H; [|exact zeqb_eq]. now apply (in_map snd) in H. Qed.
Lemma touch_put h i l p : okobj h i -> In l (locs h i) -> touch i h (put_val l p h).
Proof.
  intros (A & B & C) Hl. unfold touch, put_val. split; [reflexivity|]. split; [apply upd_len|].
  intros x Hx. rewrite hval_put_prop by auto. destruct (x =? l) eqn:E; [|reflexivity].
  apply Nat.eqb_eq in E. subst. contradiction.
Qed.
Lemma view_put h i k l p : okobj h i -> h_get k i h = Some l ->
  view (put_val l p h) i = set_o_props (zset k p (o_props (view h i))) (view h i).
Proof.
  intros (A & B & C) Hg. pose proof (get_loc _ _ _ _ Hg) as Hl.
  rewrite !view_look. change (hobj_at (put_val l p h) i) with (hobj_at h i).
  rewrite (look_put h k l p) by (auto; exact (C _ Hl)). reflexivity.
Qed.

(** Write through the reference under a code. *)
Lemma put_change h i k l f : okobj h i -> h_get k i h = Some l ->
  touch i h (put_val l (f (hval h l)) h) /\ view (put_val l (f (hval h l)) h) i = change_property k f (view h i).
Proof.
  intros H Hg. split; [apply touch_put; [exact H|exact (get_loc _ _ _ _ Hg)]|].
  rewrite (view_put _ _ k) by assumption. unfold change_property. rewrite view_get, Hg. reflexivity.
Qed.

Lemma sim_set_data h i k d : okobj h i ->
  let '(h', r) := h_set_data k d i h in touch i h h' /\ set_property_data k d (view h i) = (view h' i, r).
Proof.
  intros H. unfold h_set_data, set_property_data. rewrite view_get. destruct (h_get k i h) as [l|] eqn:E; cbn [option_map].
  - unfold h_put_data. pose proof (put_change _ _ _ _ (set_op_data d) H E) as (T & V). split; [exact T|].
    rewrite V. unfold change_property. rewrite view_get, E. reflexivity.
  - split; [apply touch_refl|reflexivity].
Qed.

Definition sim {A} (i : nat) (h : heap) (x : heap * A) (y : obj * A) : Prop :=
  touch i h (fst x) /\ y = (view (fst x) i, snd x).
Lemma sim_ret {A} i h (a : A) : sim i h (h, a) (view h i, a).
Proof. split; [apply touch_refl|reflexivity]. Qed.
Lemma sim_after {A} i h h1 (x : heap * A) y : touch i h h1 -> sim i h1 x y -> sim i h x y.
Proof. intros T (S & E). split; [exact (touch_trans _ _ _ _ T S)|exact E]. Qed.
Lemma sim_data h i k d : okobj h i -> sim i h (h_set_data k d i h) (set_property_data k d (view h i)).
Proof. intros H. pose proof (sim_set_data h i k d H) as S. destruct (h_set_data k d i h) as [h' r]. exact S. Qed.
Lemma sim_wrap {A} {B} (f : A -> B) i h (x : heap * A) (y : obj * A) : sim i h x y ->
  sim i h (let '(h', r) := x in (h', f r)) (let '(o, r) := y in (o, f r)).
Proof. destruct x as [h' r], y as [o r']. intros (T & E). cbn [fst snd] in *. split; [exact T|]. cbn. congruence. Qed.
Lemma sim_bind {A B} i h (x : heap * A) (y : obj * A) (f : heap -> A -> heap * B) (g : obj -> A -> obj * B) :
  okobj h i -> sim i h x y ->
  (forall h' a, touch i h h' -> okobj h' i -> sim i h' (f h' a) (g (view h' i) a)) ->
  sim i h (let '(h', a) := x in f h' a) (let '(o, a) := y in g o a).
Proof.
  intros K (T & E) H. destruct x as [h' a], y as [o a']. cbn [fst snd] in *.
  assert (o = view h' i) by congruence. assert (a' = a) by congruence. subst.
  apply (sim_after _ _ _ _ _ T). apply H; [exact T|]. exact (touch_ok _ _ _ _ T K).
Qed.

Section Sim.
Context {PS : PySet}.
Lemma sim_map h i k pm : okobj h i -> sim i h (h_set_map k pm i h) (set_property_map k pm (view h i)).
Proof.
  intros H. unfold h_set_map, set_property_map, has_property. rewrite view_get.
  destruct (h_get k i h) as [l|]; cbn [option_map isSome negb]; [|apply sim_ret].
  destruct (bytes_of (zlen pm :: pm)) as [mb|e]; [|apply sim_ret].
  destruct (is_format1 (zlen pm)).
  - apply (sim_wrap (fun r => Ok r)). now apply sim_data.
  - destruct (bytes_of (Z.of_nat PROPERTYMAP_FORMAT2_MAP_SIZE :: map2_encode pm)) as [mb2|e]; [|apply sim_ret].
    apply (sim_wrap (fun r => Ok r)). now apply sim_data.
Qed.
Lemma view_codes f h i : codes_where f (view h i) = h_codes f i h.
Proof. unfold codes_where, h_codes. rewrite view_look. cbn [o_props set_o_props]. unfold dvals, look. rewrite !map_map. reflexivity. Qed.
Lemma sim_update h i : okobj h i -> sim i h (h_update_maps i h) (update_property_maps (view h i)).
Proof.
  intros H. unfold h_update_maps, update_property_maps. rewrite !view_codes.
  generalize (set_list (h_codes is_announce_required i h)) (set_list (h_codes is_read_enabled i h))
    (set_list (h_codes is_write_enabled i h)); intros m1 m2 m3.
  pose proof (sim_map h i ANNO_PROPERTY_MAP m1 H) as (T1 & E1).
  destruct (h_set_map ANNO_PROPERTY_MAP m1 i h) as [h1 r1]. cbn [fst snd] in *. rewrite E1.
  destruct r1 as [[|]|e]; [|exact (conj T1 eq_refl)|exact (conj T1 eq_refl)].
  apply (sim_after _ _ _ _ _ T1). pose proof (touch_ok _ _ _ _ T1 H) as H1.
  pose proof (sim_map h1 i GET_PROPERTY_MAP m2 H1) as (T2 & E2).
  destruct (h_set_map GET_PROPERTY_MAP m2 i h1) as [h2 r2]. cbn [fst snd] in *. rewrite E2.
  destruct r2 as [[|]|e]; [|exact (conj T2 eq_refl)|exact (conj T2 eq_refl)].
  apply (sim_after _ _ _ _ _ T2). apply sim_map. exact (touch_ok _ _ _ _ T2 H1).
Qed.
Lemma sim_instances h i codes : okobj h i -> sim i h (h_np_instances codes i h) (np_update_instances codes (view h i)).
Proof.
  intros H. unfold h_np_instances, np_update_instances. destruct (np_instance_loop codes) as [cnt l].
  generalize (from_int_n cnt 3) (from_int_n cnt 1 ++ l). intros d1 d2.
  pose proof (sim_data h i 0xD3%Z d1 H) as (T1 & E1).
  destruct (h_set_data 0xD3 d1 i h) as [h1 r1]. cbn [fst snd] in *. rewrite E1.
  destruct r1; [|exact (conj T1 eq_refl)].
  apply (sim_after _ _ _ _ _ T1). pose proof (touch_ok _ _ _ _ T1 H) as H1.
  pose proof (sim_data h1 i 0xD5%Z d2 H1) as (T2 & E2).
  destruct (h_set_data 0xD5 d2 i h1) as [h2 r2]. cbn [fst snd] in *. rewrite E2.
  destruct r2; [|exact (conj T2 eq_refl)].
  apply (sim_after _ _ _ _ _ T2). apply sim_data. exact (touch_ok _ _ _ _ T2 H1).
Qed.
Lemma sim_classes h i codes : okobj h i -> sim i h (h_np_classes codes i h) (np_update_classes codes (view h i)).
Proof.
  intros H. unfold h_np_classes, np_update_classes. destruct (np_class_loop codes) as [cnt l].
  generalize (from_int_n cnt 2) (from_int_n cnt 1 ++ l). intros d1 d2.
  pose proof (sim_data h i 0xD4%Z d1 H) as (T1 & E1).
  destruct (h_set_data 0xD4 d1 i h) as [h1 r1]. cbn [fst snd] in *. rewrite E1.
  destruct r1; [|exact (conj T1 eq_refl)].
  apply (sim_after _ _ _ _ _ T1). apply sim_data. exact (touch_ok _ _ _ _ T1 H).
Qed.
Lemma sim_update_map h i codes : okobj h i -> sim i h (h_np_update_map codes i h) (np_update_map codes (view h i)).
Proof.
  intros H. unfold h_np_update_map, np_update_map.
  pose proof (sim_instances h i codes H) as (T1 & E1).
  destruct (h_np_instances codes i h) as [h1 r1]. cbn [fst snd] in *. rewrite E1.
  destruct r1; [|exact (conj T1 eq_refl)].
  apply (sim_after _ _ _ _ _ T1). pose proof (touch_ok _ _ _ _ T1 H) as H1.
  pose proof (sim_classes h1 i codes H1) as (T2 & E2).
  destruct (h_np_classes codes i h1) as [h2 r2]. cbn [fst snd] in *. rewrite E2.
  destruct r2; [|exact (conj T2 eq_refl)].
  apply (sim_after _ _ _ _ _ T2). apply sim_update. exact (touch_ok _ _ _ _ T2 H1).
Qed.
End Sim.

(** ** Answering *)
Definition builtin (x : handler) : Prop := match x with HUser _ => False | _ => True end.

Lemma touch_handler i h h' j : touch i h h' -> o_handler (ho_val (hobj_at h' j)) = o_handler (ho_val (hobj_at h j)).
Proof. intros T. now rewrite (touch_at _ _ _ j T). Qed.

Definition serves (x : handler) : Prop := match x with HSuper | HReadOnly => True | _ => False end.
Lemma sim_do_read i h mp : okobj h i -> serves (o_handler (ho_val (hobj_at h i))) ->
  sim i h (h_do_read i h mp) (do_read (view h i) mp).
Proof.
  intros H Hs. unfold h_do_read, do_read. rewrite view_get. destruct (h_get (p_code mp) i h) as [l|] eqn:E; cbn [option_map]; [|apply sim_ret].
  unfold read_requested, h_may_read. change (o_handler (view h i)) with (o_handler (ho_val (hobj_at h i))).
  destruct (o_handler (ho_val (hobj_at h i))); try contradiction; cbn [option_map];
  rewrite view_get; (destruct (h_get (op_code (hval h l)) i h) as [q|]; cbn [option_map]; [|apply sim_ret]);
  (destruct (is_read_enabled (hval h q)); [|apply sim_ret]);
  unfold current; rewrite view_get, E; apply sim_ret.
Qed.
Lemma sim_do_read_wr i h mp : okobj h i -> serves (o_handler (ho_val (hobj_at h i))) ->
  sim i h (h_do_read_wr i h mp) (do_read_wr (view h i) mp).
Proof.
  intros H Hs. unfold h_do_read_wr, do_read_wr. cbv zeta. rewrite view_get.
  unfold read_requested, h_may_read. change (o_handler (view h i)) with (o_handler (ho_val (hobj_at h i))).
  destruct (o_handler (ho_val (hobj_at h i))); try contradiction;
  (destruct (h_get (p_code mp) i h) as [l|] eqn:E; cbn [option_map]; [|apply sim_ret]);
  rewrite view_get; (destruct (h_get (op_code (hval h l)) i h) as [q|]; cbn [option_map]; [|apply sim_ret]);
  (destruct (is_read_enabled (hval h q)); [|apply sim_ret]);
  unfold current; rewrite view_get, E; apply sim_ret.
Qed.
Lemma sim_do_write i h mp : okobj h i -> serves (o_handler (ho_val (hobj_at h i))) ->
  sim i h (h_do_write i h mp) (do_write (view h i) mp).
Proof.
  intros H Hs. unfold h_do_write, do_write. rewrite view_get. destruct (h_get (p_code mp) i h) as [l|] eqn:E; cbn [option_map]; [|apply sim_ret].
  unfold write_requested, h_may_write. change (o_handler (view h i)) with (o_handler (ho_val (hobj_at h i))).
  destruct (o_handler (ho_val (hobj_at h i))); try contradiction; cbn [option_map]; [|apply sim_ret].
  rewrite view_get. destruct (h_get (op_code (hval h l)) i h) as [q|]; cbn [option_map]; [|apply sim_ret].
  destruct (is_write_enabled (hval h q)); [|apply sim_ret].
  unfold store, set_property_data, h_put_data. pose proof (put_change _ _ _ _ (set_op_data (p_data mp)) H E) as (T & V).
  split; [exact T|]. cbn [fst snd]. rewrite V. unfold change_property. rewrite view_get, E. reflexivity.
Qed.
Lemma sim_loop i (f : heap -> prop -> heap * res (prop * bool)) g :
  (forall h mp, okobj h i -> serves (o_handler (ho_val (hobj_at h i))) -> sim i h (f h mp) (g (view h i) mp)) ->
  forall l h, okobj h i -> serves (o_handler (ho_val (hobj_at h i))) -> sim i h (h_loop f h l) (do_loop g (view h i) l).
Proof.
  intros F. induction l as [|mp l IH]; intros h H Hs; [apply sim_ret|]. cbn [h_loop do_loop].
  pose proof (F h mp H Hs) as (T & E). destruct (f h mp) as [h1 r]. cbn [fst snd] in *. rewrite E.
  destruct r as [[rp acc]|e]; [|exact (conj T eq_refl)].
  apply (sim_after _ _ _ _ _ T).
  assert (Hs1 : serves (o_handler (ho_val (hobj_at h1 i)))) by (now rewrite (touch_handler _ _ _ i T)).
  pose proof (IH h1 (touch_ok _ _ _ _ T H) Hs1) as (T2 & E2).
  destruct (h_loop f h1 l) as [h2 r2]. cbn [fst snd] in *. rewrite E2.
  destruct r2 as [[rps n]|e]; exact (conj T2 eq_refl).
Qed.
Definition drop_told (x : obj * list nat * res (option msg)) : obj * res (option msg) := let '(o, _, r) := x in (o, r).
Lemma sim_received i h req : okobj h i -> builtin (o_handler (ho_val (hobj_at h i))) ->
  sim i h (h_received i req h) (drop_told (obj_message_received (view h i) req)).
Proof.
  intros H Hb. unfold h_received, obj_message_received. cbv zeta.
  destruct (is_request (m_ESV req)); cbn [negb]; [|exact (conj (touch_refl _ _) eq_refl)].
  change (o_handler (view h i)) with (o_handler (ho_val (hobj_at h i))).
  assert (D : o_handler (ho_val (hobj_at h i)) = HNone \/ serves (o_handler (ho_val (hobj_at h i)))).
  { destruct (o_handler (ho_val (hobj_at h i))); cbn in *; tauto. }
  destruct D as [D|D]; [rewrite D; exact (conj (touch_refl _ _) eq_refl)|].
  set (res0 := set_SEOJ _ _). clearbody res0.
  assert (X : sim i h
    (if is_write_read_request (m_ESV req) then
        match h_loop (h_do_write i) h (m_sets req) with
        | (h1, Err e) => (h1, Err e)
        | (h1, Ok (sets, n)) =>
          match h_loop (h_do_read_wr i) h1 (m_gets req) with
          | (h2, Err e) => (h2, Err e)
          | (h2, Ok (gets, k)) => match response_esv (m_ESV req) (n + k =? OPC req + OPCSet req + OPCGet req)%Z with
        | None => (h2, Ok None)
        | Some e => (h2, Ok (Some (set_ESV e (set_gets gets (set_sets sets res0)))))
        end
          end
        end
      else
        match h_loop (h_do_plain (m_ESV req) i) h (m_props req) with
        | (h1, Err e) => (h1, Err e)
        | (h1, Ok (ps, n)) => match response_esv (m_ESV req) (n =? OPC req + OPCSet req + OPCGet req)%Z with
        | None => (h1, Ok None)
        | Some e => (h1, Ok (Some (set_ESV e (set_props ps res0))))
        end
        end)
    (drop_told (if is_write_read_request (m_ESV req) then
        match do_loop do_write (view h i) (m_sets req) with
        | (o1, Err e) => (o1, o_obs (view h i), Err e)
        | (o1, Ok (sets, n)) =>
          match do_loop do_read_wr o1 (m_gets req) with
          | (o2, Err e) => (o2, o_obs (view h i), Err e)
          | (o2, Ok (gets, k)) => match response_esv (m_ESV req) (n + k =? OPC req + OPCSet req + OPCGet req)%Z with
        | None => (o2, o_obs (view h i), Ok None)
        | Some e => (o2, o_obs (view h i), Ok (Some (set_ESV e (set_gets gets (set_sets sets res0)))))
        end
          end
        end
      else
        match do_loop (do_plain (m_ESV req)) (view h i) (m_props req) with
        | (o1, Err e) => (o1, o_obs (view h i), Err e)
        | (o1, Ok (ps, n)) => match response_esv (m_ESV req) (n =? OPC req + OPCSet req + OPCGet req)%Z with
        | None => (o1, o_obs (view h i), Ok None)
        | Some e => (o1, o_obs (view h i), Ok (Some (set_ESV e (set_props ps res0))))
        end
        end))).
  { destruct (is_write_read_request (m_ESV req)).
    - pose proof (sim_loop i _ _ (sim_do_write i) (m_sets req) h H D) as (T & E).
      destruct (h_loop (h_do_write i) h (m_sets req)) as [h1 r1]. cbn [fst snd] in *. rewrite E.
      destruct r1 as [[sets n]|e]; [|exact (conj T eq_refl)].
      apply (sim_after _ _ _ _ _ T).
      assert (D1 : serves (o_handler (ho_val (hobj_at h1 i)))) by (now rewrite (touch_handler _ _ _ i T)).
      pose proof (sim_loop i _ _ (sim_do_read_wr i) (m_gets req) h1 (touch_ok _ _ _ _ T H) D1) as (T2 & E2).
      destruct (h_loop (h_do_read_wr i) h1 (m_gets req)) as [h2 r2]. cbn [fst snd] in *. rewrite E2.
      destruct r2 as [[gets k]|e]; [|exact (conj T2 eq_refl)].
      destruct (response_esv _ _); exact (conj T2 eq_refl).
    - assert (F : forall h mp, okobj h i -> serves (o_handler (ho_val (hobj_at h i))) ->
          sim i h (h_do_plain (m_ESV req) i h mp) (do_plain (m_ESV req) (view h i) mp)).
      { intros h' mp A B. unfold h_do_plain, do_plain. destruct (is_read_request _); [now apply sim_do_read|].
        destruct (is_write_request _); [now apply sim_do_write|]. apply sim_ret. }
      pose proof (sim_loop i _ _ F (m_props req) h H D) as (T & E).
      destruct (h_loop (h_do_plain (m_ESV req) i) h (m_props req)) as [h1 r1]. cbn [fst snd] in *. rewrite E.
      destruct r1 as [[ps n]|e]; [|exact (conj T eq_refl)].
      destruct (response_esv _ _); exact (conj T eq_refl). }
  destruct (o_handler (ho_val (hobj_at h i))); try contradiction; exact X.
Qed.

(** ** Adding and copying *)
Lemma in_locs_zset k l (d : list (Z * nat)) x : In x (map snd (zset k l d)) -> x = l \/ In x (map snd d).
Proof.
  induction d as [|[a b] d IH]; cbn [dset map snd].
  - intros [<-|[]]; auto.
  - destruct (k =? a)%Z; cbn [map snd]; intros [<-|H]; cbn [In]; auto. destruct (IH H); auto.
Qed.
Lemma nodup_locs_zset k l (d : list (Z * nat)) : NoDup (map snd d) -> ~ In l (map snd d) -> NoDup (map snd (zset k l d)).
Proof.
  induction d as [|[a b] d IH]; cbn [dset map snd]; intros Hn Hl.
  - constructor; [easy|constructor].
  - inversion Hn as [|? ? Ha Hd]; subst. cbn [In] in Hl. destruct (k =? a)%Z; cbn [map snd].
    + constructor; tauto.
    + constructor; [|apply IH; tauto]. intros Hi. destruct (in_locs_zset _ _ _ _ Hi); [subst; tauto|contradiction].
Qed.
Lemma hobj_put i o h j : i < length (h_objs h) -> hobj_at (put_hobj i o h) j = if j =? i then o else hobj_at h j.
Proof.
  intros H. unfold hobj_at, put_hobj. cbn [h_objs]. rewrite nth_upd. apply Nat.ltb_lt in H. rewrite H, andb_true_r. reflexivity.
Qed.
Lemma add_base_val l i h x : l < length (h_props h) -> hval (h_add_base l i h) x = hval h x.
Proof.
  intros H. unfold h_add_base. cbv zeta. rewrite hval_put_prop by exact H. cbn [fst].
  destruct (x =? l) eqn:E; [|reflexivity]. apply Nat.eqb_eq in E. now subst.
Qed.
Lemma add_base_obj l i h j : i < length (h_objs h) ->
  hobj_at (h_add_base l i h) j =
    if j =? i then mkho (ho_val (hobj_at h i)) (zset (op_code (hval h l)) l (ho_dict (hobj_at h i))) else hobj_at h j.
Proof.
  intros H. unfold h_add_base. cbv zeta. unfold put_prop. unfold hobj_at at 1. cbn [h_objs].
  change (nth j (h_objs (put_hobj i ?o h)) nil_obj) with (hobj_at (put_hobj i o h) j). rewrite hobj_put by exact H. reflexivity.
Qed.
Lemma add_base_len l i h : length (h_props (h_add_base l i h)) = length (h_props h) /\
  length (h_objs (h_add_base l i h)) = length (h_objs h).
Proof. unfold h_add_base, put_prop, put_hobj. cbn [h_props h_objs]. rewrite !upd_len. auto. Qed.
Lemma add_base_ok l i h : okobj h i -> l < length (h_props h) -> ~ In l (locs h i) ->
  okobj (h_add_base l i h) i /\ view (h_add_base l i h) i = fst (add_property_base (Some (hval h l)) (view h i)) /\
  (forall x, In x (locs (h_add_base l i h) i) -> x = l \/ In x (locs h i)).
Proof.
  intros (A & B & C) Hl Hn. pose proof (add_base_len l i h) as (L1 & L2).
  assert (Q : forall x, In x (locs (h_add_base l i h) i) -> x = l \/ In x (locs h i)).
  { unfold locs. rewrite add_base_obj, Nat.eqb_refl by exact A. cbn [ho_dict]. intros x. apply in_locs_zset. }
  repeat split.
  - now rewrite L2.
  - unfold locs. rewrite add_base_obj, Nat.eqb_refl by exact A. now apply nodup_locs_zset.
  - intros x Hx. rewrite L1. destruct (Q x Hx); [now subst|auto].
  - rewrite view_look, add_base_obj, Nat.eqb_refl by exact A. cbn [ho_dict ho_val].
    rewrite (look_ext h) by (intros; now apply add_base_val). rewrite look_set. reflexivity.
  - exact Q.
Qed.

Lemma position_nth l s d : In l s -> nth (position l s) s d = l /\ position l s < length s.
Proof.
  induction s as [|x s IH]; [easy|]. cbn [In position]. destruct (x =? l) eqn:E.
  - apply Nat.eqb_eq in E. intros _. cbn. split; [exact E|lia].
  - intros [H|H]; [apply Nat.eqb_neq in E; contradiction|]. destruct (IH H) as (P1 & P2). cbn. split; [exact P1|lia].
Qed.
(** Only new instances. *)
Definition grows (h h' : heap) : Prop := exists ps os, h_props h' = h_props h ++ ps /\ h_objs h' = h_objs h ++ os.
Lemma deepcopy_spec l h : l < length (h_props h) ->
  let '(h', l') := deepcopy l h in
  grows h h' /\ length (h_props h) <= l' < length (h_props h') /\ hval h' l' = hval h l.
Proof.
  intros Hl. unfold deepcopy. destruct (howner h l) as [i|].
  - cbv zeta. set (own := map snd (ho_dict (hobj_at h i))).
    set (copied := if existsb (Nat.eqb l) own then own else own ++ [l]).
    assert (Hc : In l copied).
    { unfold copied. destruct (existsb (Nat.eqb l) own) eqn:E.
      - apply existsb_exists in E. destruct E as (x & Hx & Ex). apply Nat.eqb_eq in Ex. now subst.
      - apply in_or_app. right. now left. }
    destruct (position_nth l copied O Hc) as (P1 & P2).
    split; [eexists; eexists; split; reflexivity|]. cbn [h_props]. rewrite app_length, map_length. split; [lia|].
    unfold hval at 1. cbn [h_props]. rewrite app_nth2_plus.
    rewrite (nth_indep _ _ ((fun x => (hval h x, Some (length (h_objs h)))) O)) by (rewrite map_length; exact P2).
    rewrite (map_nth (fun x => (hval h x, Some (length (h_objs h))))), P1. reflexivity.
  - unfold alloc_prop. split; [exists [(hval h l, None)], []; split; [reflexivity|now rewrite app_nil_r]|].
    cbn [h_props]. rewrite app_length. cbn [length]. split; [lia|].
    unfold hval at 1. cbn [h_props]. rewrite app_nth2, Nat.sub_diag by lia. reflexivity.
Qed.
Lemma grows_at h h' j : grows h h' -> j < length (h_objs h) -> hobj_at h' j = hobj_at h j.
Proof. intros (ps & os & _ & E) H. unfold hobj_at. rewrite E. now apply app_nth1. Qed.
Lemma grows_val h h' l : grows h h' -> l < length (h_props h) -> hval h' l = hval h l.
Proof. intros (ps & os & E & _) H. unfold hval. rewrite E. now rewrite app_nth1. Qed.
Lemma grows_len h h' : grows h h' -> length (h_props h) <= length (h_props h') /\ length (h_objs h) <= length (h_objs h').
Proof. intros (ps & os & E & F). rewrite E, F, !app_length. lia. Qed.

(** Only [i] and its properties change; new properties of [i] are new instances. *)
Definition acts (i : nat) (h h' : heap) : Prop :=
  length (h_props h) <= length (h_props h') /\ length (h_objs h) <= length (h_objs h') /\
  (forall j, j <> i -> j < length (h_objs h) -> hobj_at h' j = hobj_at h j) /\
  (forall l, l < length (h_props h) -> ~ In l (locs h i) -> hval h' l = hval h l) /\
  (forall l, In l (locs h' i) -> In l (locs h i) \/ length (h_props h) <= l).
Lemma acts_touch i h h' : touch i h h' -> acts i h h'.
Proof.
  intros T. pose proof (touch_locs _ _ _ i T) as L. pose proof (fun j => touch_at _ _ _ j T) as A.
  destruct T as (E1 & E2 & E3). unfold acts. rewrite E1, E2, L. repeat split; auto.
Qed.
Lemma acts_grows i h h' : i < length (h_objs h) -> grows h h' -> acts i h h'.
Proof.
  intros Hi G. pose proof (grows_len _ _ G) as (L1 & L2). repeat split; auto.
  - intros j _ Hj. now apply grows_at.
  - intros l Hl _. now apply grows_val.
  - intros l. unfold locs. rewrite (grows_at _ _ i G Hi). auto.
Qed.
Lemma acts_trans i h h1 h2 : acts i h h1 -> acts i h1 h2 -> acts i h h2.
Proof.
  intros (A1 & B1 & C1 & D1 & E1) (A2 & B2 & C2 & D2 & E2). repeat split; try lia.
  - intros j Hj Hl. rewrite C2 by (auto; lia). auto.
  - intros l Hl Hn. rewrite D2; [auto|lia|]. intros Hi. destruct (E1 _ Hi); [contradiction|lia].
  - intros l Hi. destruct (E2 _ Hi) as [H|H]; [auto|right; lia].
Qed.
Lemma acts_val i h (f : obj -> obj) : i < length (h_objs h) -> okobj h i ->
  let h' := put_hobj i (mkho (f (ho_val (hobj_at h i))) (ho_dict (hobj_at h i))) h in
  acts i h h' /\ okobj h' i /\ view h' i = set_o_props (o_props (view h i)) (f (ho_val (hobj_at h i))).
Proof.
  intros Hi H. cbv zeta.
  assert (L : forall j, locs (put_hobj i (mkho (f (ho_val (hobj_at h i))) (ho_dict (hobj_at h i))) h) j = locs h j).
  { intros j. unfold locs. rewrite hobj_put by exact Hi. destruct (j =? i) eqn:E; [|reflexivity].
    apply Nat.eqb_eq in E. now subst. }
  assert (O : length (h_objs (put_hobj i (mkho (f (ho_val (hobj_at h i))) (ho_dict (hobj_at h i))) h)) = length (h_objs h))
    by apply upd_len.
  split; [|split].
  - unfold acts. rewrite L, O. repeat split; auto.
    intros j Hj _. rewrite hobj_put by exact Hi. apply Nat.eqb_neq in Hj. now rewrite Hj.
  - unfold okobj. rewrite L, O. exact H.
  - rewrite !view_look, hobj_put, Nat.eqb_refl by exact Hi. reflexivity.
Qed.

Section Sim2.
Context {PS : PySet}.
(** The state after a method that may also create instances. *)
Definition asim {A} (i : nat) (h : heap) (x : heap * A) (y : obj * A) : Prop :=
  acts i h (fst x) /\ okobj (fst x) i /\ y = (view (fst x) i, snd x).
Lemma asim_sim {A} i h (x : heap * A) y : okobj h i -> sim i h x y -> asim i h x y.
Proof. intros H (T & E). split; [now apply acts_touch|]. split; [exact (touch_ok _ _ _ _ T H)|exact E]. Qed.
Lemma asim_after {A} i h h1 (x : heap * A) y : acts i h h1 -> asim i h1 x y -> asim i h x y.
Proof. intros T (S & E). split; [exact (acts_trans _ _ _ _ T S)|exact E]. Qed.

Lemma sim_add_super l i h : okobj h i -> l < length (h_props h) -> ~ In l (locs h i) ->
  touch i (h_add_base l i h) (fst (h_add_super l i h)) /\
  add_property_super (Some (hval h l)) (view h i) = (view (fst (h_add_super l i h)) i, snd (h_add_super l i h)).
Proof.
  intros H Hl Hn. destruct (add_base_ok l i h H Hl Hn) as (K & V & _).
  unfold h_add_super, add_property_super. unfold add_property_base in *. cbn [fst] in V. rewrite <- V.
  pose proof (sim_update (h_add_base l i h) i K) as (T & E).
  destruct (h_update_maps i (h_add_base l i h)) as [h2 r]. cbn [fst snd] in *. rewrite E.
  destruct r; split; auto.
Qed.
Lemma acts_add l i h h1 : okobj h i -> grows h h1 -> length (h_props h) <= l < length (h_props h1) ->
  okobj h1 i /\ view h1 i = view h i /\ ~ In l (locs h1 i) /\ acts i h (h_add_base l i h1).
Proof.
  intros (A & B & C) G Hl. pose proof (grows_len _ _ G) as (L1 & L2).
  assert (L : locs h1 i = locs h i) by (unfold locs; now rewrite (grows_at _ _ i G A)).
  assert (K : okobj h1 i). { unfold okobj. rewrite L. repeat split; [lia|exact B|]. intros x Hx. specialize (C x Hx). lia. }
  assert (N : ~ In l (locs h1 i)). { rewrite L. intros Hi. specialize (C _ Hi). lia. }
  split; [exact K|]. split; [|split; [exact N|]].
  - apply view_ext; [exact (grows_at _ _ i G A)|]. intros x Hx. apply grows_val; auto.
  - pose proof (add_base_len l i h1) as (M1 & M2). unfold acts. rewrite M1, M2. repeat split; auto.
    + intros j Hj Hb. rewrite add_base_obj by lia. apply Nat.eqb_neq in Hj. rewrite Hj. now apply grows_at.
    + intros x Hx _. rewrite add_base_val by lia. now apply grows_val.
    + intros x Hx. destruct (add_base_ok l i h1 K (proj2 Hl) N) as (_ & _ & Q). destruct (Q x Hx) as [->|Hi]; [right; lia|].
      rewrite L in Hi. auto.
Qed.
Lemma asim_add_all src : forall i h, okobj h i -> (forall l, In l src -> l < length (h_props h) /\ ~ In l (locs h i)) ->
  asim i h (h_add_all src i h) (add_all (map (hval h) src) (view h i)).
Proof.
  induction src as [|l src IH]; intros i h H Hs; [apply asim_sim; [exact H|apply sim_ret]|].
  cbn [h_add_all add_all map]. destruct (Hs l (or_introl eq_refl)) as (Hl & Hn).
  pose proof (deepcopy_spec l h Hl) as D. destruct (deepcopy l h) as [h1 l']. destruct D as (G & R & V).
  destruct (acts_add l' i h h1 H G R) as (K1 & V1 & N1 & A1).
  destruct (sim_add_super l' i h1 K1 (proj2 R) N1) as (T & E). rewrite V, V1 in E. rewrite E.
  destruct (h_add_super l' i h1) as [h2 r]. cbn [fst snd] in *.
  destruct (add_base_ok l' i h1 K1 (proj2 R) N1) as (K2 & _ & _).
  pose proof (touch_ok _ _ _ _ T K2) as K3.
  pose proof (acts_trans _ _ _ _ A1 (acts_touch _ _ _ T)) as A.
  destruct r as [b|e]; [|exact (conj A (conj K3 eq_refl))].
  apply (asim_after _ _ _ _ _ A).
  replace (map (hval h) src) with (map (hval h2) src).
  - apply IH; [exact K3|]. intros x Hx. destruct (Hs x (or_intror Hx)) as (X1 & X2).
    destruct A as (A1' & _ & _ & _ & A5). split; [lia|]. intros Hi. destruct (A5 _ Hi); [contradiction|lia].
  - apply map_ext_in. intros x Hx. destruct (Hs x (or_intror Hx)) as (X1 & X2). now apply A.
Qed.
End Sim2.

(** An object that does not share properties with [i]. *)
Definition apart (h : heap) (i j : nat) : Prop :=
  j <> i /\ j < length (h_objs h) /\ (forall l, In l (locs h j) -> l < length (h_props h) /\ ~ In l (locs h i)).
Lemma acts_apart i h h' j : acts i h h' -> apart h i j ->
  apart h' i j /\ view h' j = view h j /\ hobj_at h' j = hobj_at h j.
Proof.
  intros (A & B & C & D & E) (N & R & L). pose proof (C j N R) as O. split; [|split].
  - split; [exact N|]. split; [lia|]. unfold locs in *. rewrite O. intros l Hl. destruct (L l Hl) as (L1 & L2). split; [lia|].
    intros Hi. destruct (E _ Hi); [contradiction|lia].
  - apply view_ext; [exact O|]. intros l Hl. destruct (L l Hl). auto.
  - exact O.
Qed.
(** The tables on the heap are the tables of the database. *)
Definition db_shown (db : tables) (h : heap) : Prop :=
  Forall2 (fun (e : (Z * Z) * nat) (f : (Z * Z) * obj) => fst e = fst f /\ view h (snd e) = snd f) db all_std_objects.
Definition db_apart (db : tables) (h : heap) (i : nat) : Prop := forall e, In e db -> apart h i (snd e).
Lemma db_acts i h h' db : acts i h h' -> db_apart db h i -> db_shown db h -> db_apart db h' i /\ db_shown db h'.
Proof.
  intros A P S. split.
  - intros e He. exact (proj1 (acts_apart _ _ _ _ A (P e He))).
  - unfold db_shown in *. revert S P. generalize all_std_objects. intros t S. induction S as [|e f db t (S1 & S2) S IH]; intros P; constructor.
    + split; [exact S1|]. rewrite (proj1 (proj2 (acts_apart _ _ _ _ A (P e (or_introl eq_refl))))). exact S2.
    + apply IH. intros x Hx. apply P. now right.
Qed.
Lemma kget_shown h db (t : list ((Z * Z) * obj)) k :
  Forall2 (fun (e : (Z * Z) * nat) (f : (Z * Z) * obj) => fst e = fst f /\ view h (snd e) = snd f) db t ->
  kget k t = option_map (view h) (kget k db) /\ (forall j, kget k db = Some j -> exists e, In e db /\ snd e = j).
Proof.
  intros F. induction F as [|[a j] [b o] db t (F1 & F2) F (IH1 & IH2)]; [split; [reflexivity|discriminate]|].
  cbn [fst snd] in *. subst b o. cbn [dget]. destruct (key_eqb k a).
  - split; [reflexivity|]. intros x [= <-]. exists (a, j). split; [now left|reflexivity].
  - split; [exact IH1|]. intros x Hx. destruct (IH2 x Hx) as (e & He & E). exists e. split; [now right|exact E].
Qed.
Lemma db_get_shown db h a : db_shown db h ->
  db_get_object a = option_map (view h) (h_db_get db a) /\ (forall j, h_db_get db a = Some j -> exists e, In e db /\ snd e = j).
Proof.
  intros S. unfold db_get_object, h_db_get. destruct (set_code CODE_UNKNOWN a) as [c ok]. destruct ok; cbn [negb].
  - apply kget_shown. exact S.
  - split; [reflexivity|discriminate].
Qed.

Section Sim3.
Context {PS : PySet}.
Variable db : tables.
Lemma view_name n h i : okobj h i ->
  let o := hobj_at h i in let h' := put_hobj i (mkho (set_o_name n (ho_val o)) (ho_dict o)) h in
  acts i h h' /\ okobj h' i /\ view h' i = set_o_name n (view h i).
Proof. intros H. cbv zeta. destruct (acts_val i h (set_o_name n) (proj1 H) H) as (A & K & V). split; [exact A|]. split; [exact K|]. exact V. Qed.
Lemma asim_set_object_properties s i h : okobj h i -> apart h i s ->
  asim i h (h_set_object_properties s i h) (set_object_properties (view h s) (view h i)).
Proof.
  intros H P. unfold h_set_object_properties, set_object_properties. cbv zeta.
  destruct (view_name (o_name (ho_val (hobj_at h s))) h i H) as (A & K & V).
  set (h' := put_hobj i _ h) in *. apply (asim_after _ _ _ _ _ A).
  change (o_name (view h s)) with (o_name (ho_val (hobj_at h s))). rewrite <- V.
  destruct (acts_apart _ _ _ _ A P) as (P' & V' & O').
  replace (dvals (o_props (view h s))) with (map (hval h') (map snd (ho_dict (hobj_at h s)))).
  - rewrite <- O'. apply asim_add_all; [exact K|]. apply P'.
  - rewrite <- V'. rewrite view_look. cbn [o_props set_o_props]. unfold dvals, look. rewrite O', !map_map. reflexivity.
Qed.
Lemma asim_copy_std a i h : okobj h i -> db_apart db h i -> db_shown db h ->
  asim i h (h_copy_std (h_db_get db a) i h) (copy_std (db_get_object a) (view h i)).
Proof.
  intros H P S. destruct (db_get_shown db h a S) as (E & Q). rewrite E. unfold h_copy_std, copy_std.
  destruct (h_db_get db a) as [s|]; cbn [option_map]; [|apply asim_sim; [exact H|apply sim_ret]].
  destruct (Q s eq_refl) as (e & He & <-).
  pose proof (asim_set_object_properties (snd e) i h H (P e He)) as (A & K & V). unfold hbind, obind. rewrite V.
  destruct (h_set_object_properties (snd e) i h) as [h1 r]. cbn [fst snd] in *.
  destruct r; exact (conj A (conj K eq_refl)).
Qed.
Lemma asim_bind {A B} i h (x : heap * res A) (y : obj * res A) (f : heap -> A -> heap * res B) (g : obj -> A -> obj * res B) :
  asim i h x y ->
  (forall h' a, acts i h h' -> okobj h' i -> asim i h' (f h' a) (g (view h' i) a)) ->
  asim i h (hbind x f) (obind y g).
Proof.
  intros (T & K & E) H. destruct x as [h' a]. cbn [fst snd] in *. subst y. unfold hbind, obind.
  destruct a as [a|e]; [|exact (conj T (conj K eq_refl))].
  apply (asim_after _ _ _ _ _ T). apply H; [exact T|exact K].
Qed.
Lemma view_code c h i : okobj h i -> acts i h (h_put_code c i h) /\ okobj (h_put_code c i h) i /\
  view (h_put_code c i h) i = set_o_code c (view h i).
Proof. intros H. destruct (acts_val i h (set_o_code c) (proj1 H) H) as (A & K & V). split; [exact A|]. split; [exact K|]. exact V. Qed.
Lemma view_handler x h i : okobj h i -> acts i h (h_set_handler x i h) /\ okobj (h_set_handler x i h) i /\
  view (h_set_handler x i h) i = set_o_handler x (view h i).
Proof. intros H. destruct (acts_val i h (set_o_handler x) (proj1 H) H) as (A & K & V). split; [exact A|]. split; [exact K|]. exact V. Qed.
Lemma asim_ret {A} i h (a : A) : okobj h i -> asim i h (h, a) (view h i, a).
Proof. intros H. apply asim_sim; [exact H|apply sim_ret]. Qed.
Lemma asim_standard_set_code a i h : okobj h i -> db_apart db h i -> db_shown db h ->
  asim i h (h_standard_set_code db a i h) (standard_set_code a (view h i)).
Proof.
  intros H P S. unfold h_standard_set_code, standard_set_code. cbv zeta.
  change (o_code (view h i)) with (o_code (ho_val (hobj_at h i))).
  destruct (set_code (o_code (ho_val (hobj_at h i))) a) as [c ok].
  destruct (view_code c h i H) as (A & K & V). rewrite <- V. apply (asim_after _ _ _ _ _ A).
  destruct (db_acts _ _ _ _ A P S) as (P1 & S1). destruct ok; cbn [negb]; [|now apply asim_ret].
  apply asim_bind; [now apply asim_copy_std|]. intros h1 _ A1 K1. destruct (db_acts _ _ _ _ A1 P1 S1) as (P2 & S2).
  apply asim_bind; [now apply asim_copy_std|]. intros h2 _ A2 K2. apply asim_sim; [exact K2|]. now apply sim_update.
Qed.
Lemma asim_profile_set_code a i h : okobj h i -> db_apart db h i -> db_shown db h ->
  asim i h (h_profile_set_code db a i h) (profile_set_code a (view h i)).
Proof.
  intros H P S. unfold h_profile_set_code, profile_set_code. cbv zeta.
  change (o_code (view h i)) with (o_code (ho_val (hobj_at h i))).
  destruct (set_code (o_code (ho_val (hobj_at h i))) a) as [c ok].
  destruct (view_code c h i H) as (A & K & V). rewrite <- V. apply (asim_after _ _ _ _ _ A).
  destruct (db_acts _ _ _ _ A P S) as (P1 & S1). destruct ok; cbn [negb]; [|now apply asim_ret].
  apply asim_bind; [now apply asim_copy_std|]. intros h2 _ A2 K2. apply asim_sim; [exact K2|]. now apply sim_update.
Qed.
Lemma sim_stmt i h k d : okobj h i -> touch i h (fst (h_set_data k d i h)) /\ view (fst (h_set_data k d i h)) i = stmt_data k d (view h i).
Proof.
  intros H. destruct (sim_data h i k d H) as (T & E). split; [exact T|]. unfold stmt_data. rewrite E. reflexivity.
Qed.
Lemma sim_initial r i h : okobj h i -> touch i h (h_np_initial r i h) /\ view (h_np_initial r i h) i = np_update_initial r (view h i).
Proof.
  intros H. unfold h_np_initial, np_update_initial. cbv zeta.
  generalize (from_int_n 48 1) (from_int_n ECHONET_LITE_VERSION 4) ([254; 0; 0; 0]%Z ++ rnd_id r) [Z.land (rnd_u1 r) 192; rnd_u2 r].
  intros d1 d2 d3 d4.
  destruct (sim_stmt i h 128 d1 H) as (T1 & E1). rewrite <- E1. pose proof (touch_ok _ _ _ _ T1 H) as K1.
  set (h1 := fst (h_set_data 128 d1 i h)) in *.
  destruct (sim_stmt i h1 130 d2 K1) as (T2 & E2). rewrite <- E2. pose proof (touch_ok _ _ _ _ T2 K1) as K2.
  set (h2 := fst (h_set_data 130 d2 i h1)) in *.
  destruct (sim_stmt i h2 131 d3 K2) as (T3 & E3). rewrite <- E3. pose proof (touch_ok _ _ _ _ T3 K2) as K3.
  set (h3 := fst (h_set_data 131 d3 i h2)) in *.
  destruct (sim_stmt i h3 191 d4 K3) as (T4 & E4). rewrite <- E4. split; [|reflexivity].
  exact (touch_trans _ _ _ _ T1 (touch_trans _ _ _ _ T2 (touch_trans _ _ _ _ T3 T4))).
Qed.

(** What a constructor does: the new object is the last one. *)
Definition built (h : heap) (x : heap * nat * res unit) (y : obj * res unit) : Prop :=
  let '(h', i, r) := x in
  i = length (h_objs h) /\ okobj h' i /\ y = (view h' i, r) /\
  length (h_props h) <= length (h_props h') /\ length (h_objs h) < length (h_objs h') /\
  (forall j, j < length (h_objs h) -> hobj_at h' j = hobj_at h j) /\
  (forall l, l < length (h_props h) -> hval h' l = hval h l) /\
  (forall l, In l (locs h' i) -> length (h_props h) <= l).
Lemma new_spec o h : o_props o = [] -> let '(h', i) := h_new o h in
  i = length (h_objs h) /\ grows h h' /\ okobj h' i /\ locs h' i = [] /\ view h' i = o /\ h_props h' = h_props h /\
  length (h_objs h') = S (length (h_objs h)).
Proof.
  intros Ho. unfold h_new, alloc_obj. split; [reflexivity|].
  set (h' := mkheap (h_props h) (h_objs h ++ [mkho o []])).
  assert (E : hobj_at h' (length (h_objs h)) = mkho o []).
  { unfold hobj_at, h'. cbn [h_objs]. rewrite app_nth2, Nat.sub_diag by lia. reflexivity. }
  assert (L : locs h' (length (h_objs h)) = []) by (unfold locs; now rewrite E).
  assert (N : length (h_objs h') = S (length (h_objs h))) by (unfold h'; cbn [h_objs]; rewrite app_length; cbn; lia).
  split; [exists [], [mkho o []]; split; [symmetry; apply app_nil_r|reflexivity]|].
  split; [unfold okobj; rewrite L, N; repeat split; [lia|constructor|easy]|].
  split; [exact L|]. split; [|split; [reflexivity|exact N]].
  rewrite view_look, E. cbn [ho_dict ho_val look map]. rewrite <- Ho. destruct o. reflexivity.
Qed.
Lemma built_asim o h (x : heap -> nat -> heap * res unit) (y : obj -> obj * res unit) :
  o_props o = [] ->
  (forall h1 i, grows h h1 -> okobj h1 i -> i = length (h_objs h) -> locs h1 i = [] -> view h1 i = o -> asim i h1 (x h1 i) (y (view h1 i))) ->
  built h (let '(h1, i) := h_new o h in let '(h2, r) := x h1 i in (h2, i, r)) (y o).
Proof.
  intros Ho H. pose proof (new_spec o h Ho) as N. destruct (h_new o h) as [h1 i].
  destruct N as (N1 & N2 & N3 & N4 & N5 & N6 & N7).
  pose proof (H h1 i N2 N3 N1 N4 N5) as ((A1 & A2 & A3 & A4 & A5) & K & E). rewrite N5 in E.
  destruct (x h1 i) as [h2 r]. cbn [fst snd] in *. rewrite N6 in *. rewrite N4 in *.
  split; [exact N1|]. split; [exact K|]. split; [exact E|]. split; [exact A1|]. split; [lia|]. split; [|split].
  - intros j Hj. rewrite A3 by lia. now apply grows_at.
  - intros l Hl. rewrite A4 by easy. now apply grows_val.
  - intros l Hl. destruct (A5 l Hl) as [[]|]. assumption.
Qed.
(** The tables seen from a new object. *)
Definition db_ready (h : heap) : Prop :=
  db_shown db h /\ forall e, In e db -> snd e < length (h_objs h) /\ (forall l, In l (locs h (snd e)) -> l < length (h_props h)).
Lemma ready_new h h1 i : db_ready h -> grows h h1 -> i = length (h_objs h) -> locs h1 i = [] -> db_apart db h1 i /\ db_shown db h1.
Proof.
  intros (S & R) G Hi L. pose proof (grows_len _ _ G) as (L1 & L2). split.
  - intros e He. destruct (R e He) as (R1 & R2). split; [lia|]. split; [lia|]. unfold locs in *. rewrite (grows_at _ _ _ G R1).
    intros l Hl. specialize (R2 l Hl). split; [lia|]. rewrite L. intros [].
  - unfold db_shown in *. revert S R. generalize all_std_objects. intros t S. induction S as [|e f d t (S1 & S2) S IH]; intros R; constructor.
    + split; [exact S1|]. destruct (R e (or_introl eq_refl)) as (R1 & R2). rewrite <- S2. apply view_ext; [now apply grows_at|].
      intros l Hl. apply grows_val; auto.
    + apply IH. intros x Hx. apply R. now right.
Qed.
Lemma built_standard a h : db_ready h -> built h (h_new_standard db a h) (new_standard a).
Proof.
  intros R. unfold h_new_standard, new_standard.
  apply (built_asim (mkobj CODE_UNKNOWN "" [] HSuper 0 [] CStandard) h (fun h i => hbind (h_standard_set_code db a i h) (fun h _ => (h, Ok tt)))
    (fun o => obind (standard_set_code a o) (fun o _ => (o, Ok tt)))); [reflexivity|].
  intros h1 i G K Hi L V. destruct (ready_new _ _ _ R G Hi L) as (P & S).
  apply asim_bind; [now apply asim_standard_set_code|]. intros. now apply asim_ret.
Qed.
Definition profile_rest (a : pycode) (i : nat) (h : heap) : heap * res unit :=
  hbind (h_copy_std (h_db_get db (PInt SUPER_CODE)) i h) (fun h _ =>
    hbind (h_profile_set_code db a i h) (fun h _ => (h, Ok tt))).
Definition profile_rest_v (a : pycode) (o : obj) : obj * res unit :=
  obind (copy_std (db_get_object (PInt SUPER_CODE)) o) (fun o _ =>
  obind (profile_set_code a o) (fun o _ => (o, Ok tt))).
Lemma asim_profile_rest a i h : okobj h i -> db_apart db h i -> db_shown db h ->
  asim i h (profile_rest a i h) (profile_rest_v a (view h i)).
Proof.
  intros K P S. unfold profile_rest, profile_rest_v.
  apply asim_bind; [now apply asim_copy_std|]. intros h2 _ A K2. destruct (db_acts _ _ _ _ A P S) as (P2 & S2).
  apply asim_bind; [now apply asim_profile_set_code|]. intros. now apply asim_ret.
Qed.
Lemma new_profile_rest a : new_profile a = profile_rest_v a (mkobj CODE_UNKNOWN "" [] HSuper 0 [] CProfile).
Proof. unfold new_profile, profile_rest_v. reflexivity. Qed.
Lemma h_profile_rest a h : h_new_profile db a h =
  let '(h1, i) := h_new (mkobj CODE_UNKNOWN "" [] HSuper 0 [] CProfile) h in
  let '(h2, x) := profile_rest a i h1 in (h2, i, x).
Proof. unfold h_new_profile, profile_rest. reflexivity. Qed.
Lemma built_profile a h : db_ready h -> built h (h_new_profile db a h) (new_profile a).
Proof.
  intros R. rewrite h_profile_rest, new_profile_rest.
  apply (built_asim (mkobj CODE_UNKNOWN "" [] HSuper 0 [] CProfile) h (fun h i => profile_rest a i h) (profile_rest_v a)); [reflexivity|].
  intros h1 i G K Hi L V. destruct (ready_new _ _ _ R G Hi L) as (P & S). now apply asim_profile_rest.
Qed.
Definition node_rest (r : np_random) (i : nat) (h : heap) : heap * res unit :=
  let h := h_np_initial r i (h_set_handler HSuper i h) in
    hbind (h_np_update_map [o_code (ho_val (hobj_at h i))] i h) (fun h _ => (h, Ok tt)).
Definition node_rest_v (r : np_random) (o : obj) : obj * res unit :=
  let o := set_request_handler HSuper o in
  let o := np_update_initial r o in
  obind (np_update_map [o_code o] o) (fun o _ => (o, Ok tt)).
Lemma asim_node_rest r i h : okobj h i -> asim i h (node_rest r i h) (node_rest_v r (view h i)).
Proof.
  intros K. unfold node_rest, node_rest_v, set_request_handler. cbv zeta.
  destruct (view_handler HSuper h i K) as (A & K1 & V). rewrite <- V. apply (asim_after _ _ _ _ _ A).
  destruct (sim_initial r i _ K1) as (T & V2). rewrite <- V2. apply (asim_after _ _ _ _ _ (acts_touch _ _ _ T)).
  pose proof (touch_ok _ _ _ _ T K1) as K2. generalize dependent (h_np_initial r i (h_set_handler HSuper i h)). intros h2 _ _ K2.
  apply asim_bind; [apply asim_sim; [exact K2|]; now apply sim_update_map|]. intros. now apply asim_ret.
Qed.
Lemma hbind_assoc {A B C} (x : heap * res A) (f : heap -> A -> heap * res B) (g : heap -> B -> heap * res C) :
  hbind (hbind x f) g = hbind x (fun h a => hbind (f h a) g).
Proof. destruct x as [h [a|e]]; reflexivity. Qed.
Lemma new_node_profile_rest r : new_node_profile r =
  obind (profile_rest_v (PInt NODE_PROFILE_CODE) (mkobj CODE_UNKNOWN "" [] HSuper 0 [] CProfile)) (fun o _ => node_rest_v r o).
Proof. unfold new_node_profile. rewrite new_profile_rest. reflexivity. Qed.
Lemma h_node_rest r h : h_new_node_profile db r h =
  let '(h1, i) := h_new (mkobj CODE_UNKNOWN "" [] HSuper 0 [] CProfile) h in
  let '(h2, x) := hbind (profile_rest (PInt NODE_PROFILE_CODE) i h1) (fun h _ => node_rest r i h) in (h2, i, x).
Proof.
  unfold h_new_node_profile. rewrite h_profile_rest. destruct (h_new _ h) as [h1 i].
  destruct (profile_rest (PInt NODE_PROFILE_CODE) i h1) as [h2 r2]. destruct r2; reflexivity.
Qed.
Lemma built_node r h : db_ready h -> built h (h_new_node_profile db r h) (new_node_profile r).
Proof.
  intros R. rewrite h_node_rest, new_node_profile_rest.
  apply (built_asim (mkobj CODE_UNKNOWN "" [] HSuper 0 [] CProfile) h
    (fun h i => hbind (profile_rest (PInt NODE_PROFILE_CODE) i h) (fun h _ => node_rest r i h))
    (fun o => obind (profile_rest_v (PInt NODE_PROFILE_CODE) o) (fun o _ => node_rest_v r o))); [reflexivity|].
  intros h1 i G K Hi L V. destruct (ready_new _ _ _ R G Hi L) as (P & S).
  apply asim_bind; [now apply asim_profile_rest|]. intros. now apply asim_node_rest.
Qed.
Definition ro_rest (i : nat) (h : heap) : heap * res unit :=
  hbind (h_profile_set_code db (PInt NODE_PROFILE_READONLY_CODE) i (h_set_handler HReadOnly i h)) (fun h _ => (h, Ok tt)).
Definition ro_rest_v (o : obj) : obj * res unit :=
  obind (profile_set_code (PInt NODE_PROFILE_READONLY_CODE) (set_o_handler HReadOnly o)) (fun o _ => (o, Ok tt)).
Lemma asim_ro_rest i h : okobj h i -> db_apart db h i -> db_shown db h -> asim i h (ro_rest i h) (ro_rest_v (view h i)).
Proof.
  intros K P S. unfold ro_rest, ro_rest_v.
  destruct (view_handler HReadOnly h i K) as (A & K1 & V). rewrite <- V. apply (asim_after _ _ _ _ _ A).
  destruct (db_acts _ _ _ _ A P S) as (P2 & S2).
  apply asim_bind; [now apply asim_profile_set_code|]. intros. now apply asim_ret.
Qed.
Lemma new_readonly_rest r : new_node_profile_readonly r =
  obind (obind (profile_rest_v (PInt NODE_PROFILE_CODE) (mkobj CODE_UNKNOWN "" [] HSuper 0 [] CProfile)) (fun o _ => node_rest_v r o))
    (fun o _ => ro_rest_v o).
Proof.
  unfold new_node_profile_readonly. rewrite new_node_profile_rest. unfold ro_rest_v.
  generalize (obind (profile_rest_v (PInt NODE_PROFILE_CODE) (mkobj CODE_UNKNOWN "" [] HSuper 0 [] CProfile)) (fun o _ => node_rest_v r o)).
  intros x. reflexivity.
Qed.
Lemma h_readonly_rest r h : h_new_readonly db r h =
  let '(h1, i) := h_new (mkobj CODE_UNKNOWN "" [] HSuper 0 [] CProfile) h in
  let '(h2, x) := hbind (hbind (profile_rest (PInt NODE_PROFILE_CODE) i h1) (fun h _ => node_rest r i h)) (fun h _ => ro_rest i h) in (h2, i, x).
Proof.
  unfold h_new_readonly. rewrite h_node_rest. destruct (h_new _ h) as [h1 i].
  destruct (hbind (profile_rest (PInt NODE_PROFILE_CODE) i h1) (fun h _ => node_rest r i h)) as [h2 r2]. destruct r2; reflexivity.
Qed.
Lemma built_readonly r h : db_ready h -> built h (h_new_readonly db r h) (new_node_profile_readonly r).
Proof.
  intros R. rewrite h_readonly_rest, new_readonly_rest.
  apply (built_asim (mkobj CODE_UNKNOWN "" [] HSuper 0 [] CProfile) h
    (fun h i => hbind (hbind (profile_rest (PInt NODE_PROFILE_CODE) i h) (fun h _ => node_rest r i h)) (fun h _ => ro_rest i h))
    (fun o => obind (obind (profile_rest_v (PInt NODE_PROFILE_CODE) o) (fun o _ => node_rest_v r o)) (fun o _ => ro_rest_v o))); [reflexivity|].
  intros h1 i G K Hi L V. destruct (ready_new _ _ _ R G Hi L) as (P & S).
  apply asim_bind; [apply asim_bind; [now apply asim_profile_rest|intros; now apply asim_node_rest]|].
  intros h2 _ A K2. destruct (db_acts _ _ _ _ A P S) as (P2 & S2). now apply asim_ro_rest.
Qed.
End Sim3.

(** ** The handlers of new objects *)
Section Handlers.
Context {PS : PySet}.
Definition hb (o : obj) : Prop := builtin (o_handler o).
Lemma hb_data k d o : hb o -> hb (fst (set_property_data k d o)).
Proof. intros H. unfold set_property_data. destruct (get_property k o); exact H. Qed.
Lemma hb_data' k d o o' r : set_property_data k d o = (o', r) -> hb o -> hb o'.
Proof. intros E H. pose proof (hb_data k d o H) as X. now rewrite E in X. Qed.
Lemma hb_map k m o : hb o -> hb (fst (set_property_map k m o)).
Proof.
  intros H. unfold set_property_map. destruct (has_property k o); [|exact H]. cbn [negb].
  destruct (bytes_of (zlen m :: m)) as [b|]; [|exact H].
  destruct (is_format1 (zlen m)).
  - pose proof (hb_data k b o H) as X. destruct (set_property_data k b o). exact X.
  - destruct (bytes_of (Z.of_nat PROPERTYMAP_FORMAT2_MAP_SIZE :: map2_encode m)) as [b2|]; [|exact H].
    pose proof (hb_data k b2 o H) as X. destruct (set_property_data k b2 o). exact X.
Qed.
Lemma hb_update o : hb o -> hb (fst (update_property_maps o)).
Proof.
  intros H. unfold update_property_maps. cbv zeta.
  generalize (set_list (codes_where is_announce_required o)) (set_list (codes_where is_read_enabled o)) (set_list (codes_where is_write_enabled o)).
  intros m1 m2 m3. pose proof (hb_map ANNO_PROPERTY_MAP m1 o H) as H1.
  destruct (set_property_map ANNO_PROPERTY_MAP m1 o) as [o1 [[|]|]]; [|exact H1|exact H1].
  pose proof (hb_map GET_PROPERTY_MAP m2 o1 H1) as H2.
  destruct (set_property_map GET_PROPERTY_MAP m2 o1) as [o2 [[|]|]]; [|exact H2|exact H2].
  exact (hb_map SET_PROPERTY_MAP m3 o2 H2).
Qed.
Lemma hb_add p o : hb o -> hb (fst (add_property_super (Some p) o)).
Proof.
  intros H. unfold add_property_super, add_property_base.
  pose proof (hb_update (set_o_props (zset (op_code p) p (o_props o)) o) H) as X.
  destruct (update_property_maps _) as [o2 [b|]]; exact X.
Qed.
Lemma hb_add_all l : forall o, hb o -> hb (fst (add_all l o)).
Proof.
  induction l as [|p l IH]; intros o H; [exact H|]. cbn [add_all].
  pose proof (hb_add p o H) as X. destruct (add_property_super (Some p) o) as [o1 [b|]]; [now apply IH|exact X].
Qed.
Lemma hb_bind {A B} (x : obj * res A) (f : obj -> A -> obj * res B) :
  hb (fst x) -> (forall o a, hb o -> hb (fst (f o a))) -> hb (fst (obind x f)).
Proof. intros H F. destruct x as [o [a|]]; [now apply F|exact H]. Qed.
Lemma hb_copy s o : hb o -> hb (fst (copy_std s o)).
Proof.
  intros H. destruct s as [s|]; [|exact H]. unfold copy_std. apply hb_bind; [|auto].
  unfold set_object_properties. now apply hb_add_all.
Qed.
Lemma hb_standard a : hb (fst (new_standard a)).
Proof.
  unfold new_standard. apply hb_bind; [|auto]. unfold standard_set_code. destruct (set_code _ a) as [c ok].
  destruct ok; [|exact I]. cbn [negb]. apply hb_bind; [now apply hb_copy|]. intros o _ H.
  apply hb_bind; [now apply hb_copy|]. intros o1 _ H1. now apply hb_update.
Qed.
Lemma hb_profile_set_code a o : hb o -> hb (fst (profile_set_code a o)).
Proof.
  intros H. unfold profile_set_code. destruct (set_code _ a) as [c ok]. destruct ok; [|exact H]. cbn [negb].
  apply hb_bind; [now apply hb_copy|]. intros o1 _ H1. now apply hb_update.
Qed.
Lemma hb_profile_rest a o : hb o -> hb (fst (profile_rest_v a o)).
Proof.
  intros H. unfold profile_rest_v. apply hb_bind; [now apply hb_copy|]. intros o1 _ H1.
  apply hb_bind; [now apply hb_profile_set_code|auto].
Qed.
Lemma hb_update_map codes o : hb o -> hb (fst (np_update_map codes o)).
Proof.
  intros H. unfold np_update_map, np_update_instances, np_update_classes.
  destruct (np_instance_loop codes) as [cnt l]. destruct (np_class_loop codes) as [cnt2 l2].
  generalize (from_int_n cnt 3) (from_int_n cnt 1 ++ l) (from_int_n cnt2 2) (from_int_n cnt2 1 ++ l2). intros d1 d2 d3 d4.
  destruct (set_property_data 0xD3 d1 o) as [o1 [|]] eqn:E1; pose proof (hb_data' _ _ _ _ _ E1 H) as H1; [|exact H1].
  destruct (set_property_data 0xD5 d2 o1) as [o2 [|]] eqn:E2; pose proof (hb_data' _ _ _ _ _ E2 H1) as H2; [|exact H2].
  destruct (set_property_data 0xD6 d2 o2) as [o3 [|]] eqn:E3; pose proof (hb_data' _ _ _ _ _ E3 H2) as H3; [|exact H3].
  destruct (set_property_data 0xD4 d3 o3) as [o4 [|]] eqn:E4; pose proof (hb_data' _ _ _ _ _ E4 H3) as H4; [|exact H4].
  destruct (set_property_data 0xD7 d4 o4) as [o5 [|]] eqn:E5; pose proof (hb_data' _ _ _ _ _ E5 H4) as H5; [|exact H5].
  now apply hb_update.
Qed.
Lemma hb_node_rest r o : hb (fst (node_rest_v r o)).
Proof.
  unfold node_rest_v. cbv zeta. apply hb_bind; [|auto]. apply hb_update_map. unfold np_update_initial, stmt_data. cbv zeta.
  do 4 apply hb_data. exact I.
Qed.
Lemma hb_profile a : hb (fst (new_profile a)).
Proof. rewrite new_profile_rest. apply hb_profile_rest. exact I. Qed.
Lemma hb_node r : hb (fst (new_node_profile r)).
Proof.
  rewrite new_node_profile_rest. apply hb_bind; [apply hb_profile_rest; exact I|]. intros o _ _. apply hb_node_rest.
Qed.
Lemma hb_readonly r : hb (fst (new_node_profile_readonly r)).
Proof.
  rewrite new_readonly_rest. apply hb_bind; [apply hb_bind; [apply hb_profile_rest; exact I|intros o _ _; apply hb_node_rest]|].
  intros o _ _. unfold ro_rest_v. apply hb_bind; [|auto]. apply hb_profile_set_code. exact I.
Qed.
Lemma hb_copy_object o : hb (copy_object o).
Proof.
  unfold copy_object. generalize (dvals (o_props o)). intros l.
  assert (X : forall l x, hb x -> hb (fold_left (fun acc p => fst (add_property_base (Some p) acc)) l x)).
  { induction l0 as [|p l0 IH]; intros x H; [exact H|]. cbn [fold_left]. apply IH. exact H. }
  apply X. exact I.
Qed.
End Handlers.

(** Object.copy. *)
Definition copy_fold (j : nat) (src : list nat) (h : heap) : heap :=
  fold_left (fun h l => let '(h, l') := deepcopy l h in h_add_base l' j h) src h.
Lemma asim_copy_fold src : forall j h, okobj h j -> (forall l, In l src -> l < length (h_props h) /\ ~ In l (locs h j)) ->
  asim j h (copy_fold j src h, Ok tt)
    (fold_left (fun acc p => fst (add_property_base (Some p) acc)) (map (hval h) src) (view h j), Ok tt).
Proof.
  induction src as [|l src IH]; intros j h H Hs; [now apply asim_ret|].
  unfold copy_fold. cbn [fold_left map]. destruct (Hs l (or_introl eq_refl)) as (Hl & Hn).
  pose proof (deepcopy_spec l h Hl) as D. destruct (deepcopy l h) as [h1 l']. destruct D as (G & R & V).
  destruct (acts_add l' j h h1 H G R) as (K1 & V1 & N1 & A1).
  destruct (add_base_ok l' j h1 K1 (proj2 R) N1) as (K2 & V2 & _). rewrite V, V1 in V2. rewrite <- V2.
  apply (asim_after _ _ _ _ _ A1).
  replace (map (hval h) src) with (map (hval (h_add_base l' j h1)) src).
  - apply IH; [exact K2|]. intros x Hx. destruct (Hs x (or_intror Hx)) as (X1 & X2).
    destruct A1 as (A1' & _ & _ & _ & A5). split; [lia|]. intros Hi. destruct (A5 _ Hi); [contradiction|lia].
  - apply map_ext_in. intros x Hx. destruct (Hs x (or_intror Hx)) as (X1 & X2). now apply A1.
Qed.
Lemma built_copy i h : okobj h i -> built h (h_copy_object i h, Ok tt) (copy_object (view h i), Ok tt).
Proof.
  intros (Hi & Hn & Hr). unfold h_copy_object, copy_object. cbv zeta.
  change (o_name (view h i)) with (o_name (ho_val (hobj_at h i))). change (o_code (view h i)) with (o_code (ho_val (hobj_at h i))).
  set (o := set_o_name _ _).
  pose proof (built_asim o h (fun h1 j => (copy_fold j (map snd (ho_dict (hobj_at h i))) h1, Ok tt))
    (fun x => (fold_left (fun acc p => fst (add_property_base (Some p) acc)) (dvals (o_props (view h i))) x, Ok tt)) eq_refl) as B.
  destruct (h_new o h) as [h1 j]. apply B. clear B.
  intros h2 k G K Hk L V.
  replace (dvals (o_props (view h i))) with (map (hval h2) (map snd (ho_dict (hobj_at h i)))).
  - apply asim_copy_fold; [exact K|]. intros l Hl. pose proof (grows_len _ _ G). specialize (Hr l Hl). split; [lia|]. rewrite L. intros [].
  - rewrite view_look. cbn [o_props set_o_props]. unfold dvals, look. rewrite !map_map. cbn [snd]. apply map_ext_in.
    intros [a b] Hx. cbn [snd]. apply grows_val; [exact G|]. apply Hr. unfold locs. now apply (in_map snd) in Hx.
Qed.

(** ** The two runs *)
Definition okprop (h : heap) (objs live : list nat) (l : nat) (w : vprop) : Prop :=
  l < length (h_props h) /\
  match w with
  | VLoose q => hval h l = q /\ (forall i, In i live -> ~ In l (locs h i))
  | VAt o k => exists i, nth_error objs o = Some i /\ h_get k i h = Some l
  end.
Record rel (db : tables) (s : hstate) (v : vstate) : Prop := mkrel {
  r_live : NoDup (map snd db ++ hs_objs s);
  r_ok : forall i, In i (map snd db ++ hs_objs s) -> okobj (hs_heap s) i;
  r_sep : forall i j, In i (map snd db ++ hs_objs s) -> In j (map snd db ++ hs_objs s) -> i <> j ->
    forall l, In l (locs (hs_heap s) i) -> ~ In l (locs (hs_heap s) j);
  r_db : db_shown db (hs_heap s);
  r_objs : map (view (hs_heap s)) (hs_objs s) = vs_objs v;
  r_hb : forall i, In i (hs_objs s) -> hb (view (hs_heap s) i);
  r_nodup : NoDup (hs_props s);
  r_len : length (hs_props s) = length (vs_props v);
  r_props : forall p l w, nth_error (hs_props s) p = Some l -> nth_error (vs_props v) p = Some w ->
    okprop (hs_heap s) (hs_objs s) (map snd db ++ hs_objs s) l w }.

Lemma nth_error_upd {A} (l : list A) i j v : nth_error (upd l i v) j = if (j =? i) && (i <? length l) then Some v else nth_error l j.
Proof.
  revert i j; induction l as [|x l IH]; intros i j.
  - cbn. destruct (j =? i), j; reflexivity.
  - destruct i as [|i], j as [|j]; cbn; auto. rewrite IH. reflexivity.
Qed.
Lemma rel_nth db s v o : rel db s v -> nth_error (vs_objs v) o = option_map (view (hs_heap s)) (nth_error (hs_objs s) o).
Proof. intros R. rewrite <- (r_objs _ _ _ R). apply nth_error_map. Qed.
Lemma map_upd_one {A B} (f g : A -> B) (l : list A) o i :
  NoDup l -> nth_error l o = Some i -> (forall j, In j l -> j <> i -> g j = f j) -> map g l = upd (map f l) o (g i).
Proof.
  revert o; induction l as [|x l IH]; intros [|o] Hn Ho H; cbn in *; try discriminate.
  - assert (x = i) by congruence. subst x. f_equal. inversion Hn; subst. apply map_ext_in. intros j Hj. apply H; [auto|]. intros ->. contradiction.
  - inversion Hn; subst. f_equal.
    + apply H; [auto|]. intros ->. apply nth_error_In in Ho. contradiction.
    + apply IH; auto.
Qed.
Lemma live_of (db : tables) s o i : nth_error (hs_objs s) o = Some i -> In i (map snd db ++ hs_objs s).
Proof. intros H. apply in_or_app. right. now apply nth_error_In in H. Qed.
Lemma nodup_app_r {A} (l m : list A) : NoDup (l ++ m) -> NoDup m.
Proof. induction l as [|x l IH]; [auto|]. cbn. intros H. inversion H; auto. Qed.
Lemma nodup_app_disj {A} (l m : list A) x : NoDup (l ++ m) -> In x l -> ~ In x m.
Proof.
  induction l as [|y l IH]; [easy|]. cbn. intros H. inversion H as [|? ? H1 H2]; subst. intros [->|Hx]; [|auto].
  intros Hm. apply H1. apply in_or_app. now right.
Qed.
Lemma rel_apart db s v i : rel db s v -> In i (hs_objs s) -> db_apart db (hs_heap s) i.
Proof.
  intros R Hi e He. assert (Hl : In (snd e) (map snd db ++ hs_objs s)) by (apply in_or_app; left; now apply in_map).
  assert (Hn : snd e <> i).
  { intros E. refine (nodup_app_disj _ _ (snd e) (r_live _ _ _ R) _ _); [now apply in_map|now rewrite E]. }
  split; [exact Hn|]. destruct (r_ok _ _ _ R _ Hl) as (A & B & C). split; [exact A|]. intros l Hx. split; [auto|].
  apply (r_sep _ _ _ R (snd e) i); auto. apply in_or_app. now right.
Qed.

(** A write to the properties of one object. *)
Lemma rel_touch db s v o i h' : rel db s v -> nth_error (hs_objs s) o = Some i -> touch i (hs_heap s) h' ->
  rel db (mkhs h' (hs_objs s) (hs_props s)) (mkvs (upd (vs_objs v) o (view h' i)) (vs_props v)).
Proof.
  intros R Ho T. pose proof (fun j => touch_locs _ _ _ j T) as L. pose proof (live_of db s o i Ho) as Hi.
  constructor; cbn [hs_heap hs_objs hs_props vs_objs vs_props]; try apply R.
  - intros j Hj. exact (touch_ok _ _ _ _ T (r_ok _ _ _ R j Hj)).
  - intros j k Hj Hk Hn l. rewrite !L. now apply (r_sep _ _ _ R).
  - apply (db_acts i (hs_heap s)); [now apply acts_touch| |apply R]. apply (rel_apart _ _ _ _ R). now apply nth_error_In in Ho.
  - rewrite <- (r_objs _ _ _ R). apply (map_upd_one (view (hs_heap s)) (view h')).
    + exact (nodup_app_r _ _ (r_live _ _ _ R)).
    + exact Ho.
    + intros j Hj Hn. apply view_ext; [exact (touch_at _ _ _ j T)|]. intros l Hl. apply T.
      apply (r_sep _ _ _ R j i); auto. apply in_or_app. now right.
  - intros j Hj. pose proof (r_hb _ _ _ R j Hj) as X. unfold hb in *. change (o_handler (view h' j)) with (o_handler (ho_val (hobj_at h' j))).
    rewrite (touch_at _ _ _ j T). exact X.
  - intros p l w Hp Hw. pose proof (r_props _ _ _ R p l w Hp Hw) as (X1 & X2). split.
    + destruct T as (_ & E & _). now rewrite E.
    + destruct w as [q|o' k].
      * destruct X2 as (X2 & X3). split.
        -- rewrite <- X2. apply T. auto.
        -- intros j Hj. rewrite L. auto.
      * destruct X2 as (i' & Y1 & Y2). exists i'. split; [exact Y1|]. unfold h_get in *. now rewrite (touch_at _ _ _ i' T).
Qed.
Lemma upd_nth_same {A} (l : list A) o x : nth_error l o = Some x -> upd l o x = l.
Proof. revert o; induction l as [|y l IH]; intros [|o]; cbn; try discriminate; [congruence|]. intros H. now rewrite IH. Qed.

(** A new object. *)
Lemma rel_built db s v h' i r x : rel db s v -> built (hs_heap s) (h', i, r) (x, r) -> hb x ->
  rel db (mkhs h' (hs_objs s ++ [i]) (hs_props s)) (mkvs (vs_objs v ++ [x]) (vs_props v)).
Proof.
  intros R (B1 & B2 & B3 & B4 & B5 & B6 & B7 & B8) Hb. assert (Hx : x = view h' i) by congruence. clear B3.
  assert (O : forall j, In j (map snd db ++ hs_objs s) -> hobj_at h' j = hobj_at (hs_heap s) j /\ locs h' j = locs (hs_heap s) j /\ j <> i).
  { intros j Hj. destruct (r_ok _ _ _ R j Hj) as (X & _). pose proof (B6 j X) as E. split; [exact E|]. split; [unfold locs; now rewrite E|lia]. }
  assert (V : forall j, In j (map snd db ++ hs_objs s) -> view h' j = view (hs_heap s) j).
  { intros j Hj. apply view_ext; [apply (O j Hj)|]. intros l Hl. apply B7. now apply (r_ok _ _ _ R j Hj). }
  assert (M : forall j, In j (map snd db ++ hs_objs s ++ [i]) -> In j (map snd db ++ hs_objs s) \/ j = i).
  { intros j. rewrite app_assoc, in_app_iff. intros [H|[H|[]]]; auto. }
  constructor; cbn [hs_heap hs_objs hs_props vs_objs vs_props].
  - rewrite app_assoc. apply (Permutation_NoDup (Permutation_cons_append _ _)). constructor; [|apply R].
    intros H. now destruct (proj2 (proj2 (O i H))).
  - intros j Hj. destruct (M j Hj) as [H| ->]; [|exact B2]. destruct (r_ok _ _ _ R j H) as (X1 & X2 & X3).
    destruct (O j H) as (_ & E & _). unfold okobj. rewrite E. repeat split; [lia|exact X2|]. intros l Hl. specialize (X3 l Hl). lia.
  - intros j k Hj Hk Hn l Hl Hl2. destruct (M j Hj) as [H|Ej], (M k Hk) as [H2|Ek].
    + rewrite (proj1 (proj2 (O j H))) in Hl. rewrite (proj1 (proj2 (O k H2))) in Hl2. exact (r_sep _ _ _ R j k H H2 Hn l Hl Hl2).
    + subst k. rewrite (proj1 (proj2 (O j H))) in Hl. apply (r_ok _ _ _ R j H) in Hl. apply B8 in Hl2. lia.
    + subst j. rewrite (proj1 (proj2 (O k H2))) in Hl2. apply (r_ok _ _ _ R k H2) in Hl2. apply B8 in Hl. lia.
    + congruence.
  - pose proof (r_db _ _ _ R) as S. unfold db_shown in *.
    assert (V' : forall e, In e db -> view h' (snd e) = view (hs_heap s) (snd e)).
    { intros e He. apply V. apply in_or_app. left. now apply in_map. }
    clear - S V'. revert S V'. generalize all_std_objects. intros t S. induction S as [|e f d t (S1 & S2) S IH]; intros V'; constructor.
    + split; [exact S1|]. rewrite V' by (now left). exact S2.
    + apply IH. intros y Hy. apply V'. now right.
  - rewrite map_app. cbn [map]. rewrite Hx. f_equal. rewrite <- (r_objs _ _ _ R). apply map_ext_in. intros j Hj. apply V.
    apply in_or_app. now right.
  - intros j Hj. apply in_app_or in Hj. destruct Hj as [Hj|[<-|[]]].
    + rewrite V by (apply in_or_app; now right). now apply (r_hb _ _ _ R).
    + now rewrite <- Hx.
  - apply R.
  - apply R.
  - intros p l w Hp Hw. pose proof (r_props _ _ _ R p l w Hp Hw) as (X1 & X2). split; [lia|].
    destruct w as [q|o k].
    + destruct X2 as (X2 & X3). split; [rewrite B7 by exact X1; exact X2|]. intros j Hj. destruct (M j Hj) as [H| ->].
      * rewrite (proj1 (proj2 (O j H))). auto.
      * intros Hl. apply B8 in Hl. lia.
    + destruct X2 as (i' & Y1 & Y2). exists i'. split.
      * rewrite nth_error_app1; [exact Y1|]. apply nth_error_Some. congruence.
      * unfold h_get in *. rewrite (proj1 (O i' (live_of db s o i' Y1))). exact Y2.
Qed.

(** A new property. *)
Lemma rel_new_prop db s v h' l q : rel db s v -> grows (hs_heap s) h' ->
  length (h_props (hs_heap s)) <= l < length (h_props h') -> hval h' l = q ->
  rel db (mkhs h' (hs_objs s) (hs_props s ++ [l])) (mkvs (vs_objs v) (vs_props v ++ [VLoose q])).
Proof.
  intros R G Hl Hq. pose proof (grows_len _ _ G) as (L1 & L2).
  assert (O : forall j, In j (map snd db ++ hs_objs s) -> hobj_at h' j = hobj_at (hs_heap s) j /\ locs h' j = locs (hs_heap s) j).
  { intros j Hj. destruct (r_ok _ _ _ R j Hj) as (X & _). pose proof (grows_at _ _ j G X) as E. split; [exact E|unfold locs; now rewrite E]. }
  assert (V : forall j, In j (map snd db ++ hs_objs s) -> view h' j = view (hs_heap s) j).
  { intros j Hj. apply view_ext; [apply (O j Hj)|]. intros x Hx. apply grows_val; [exact G|]. now apply (r_ok _ _ _ R j Hj). }
  assert (P : forall p x, nth_error (hs_props s) p = Some x -> x < length (h_props (hs_heap s))).
  { intros p x Hp. destruct (nth_error (vs_props v) p) as [w|] eqn:E; [apply (r_props _ _ _ R p x w Hp E)|].
    apply nth_error_None in E. rewrite <- (r_len _ _ _ R) in E. apply nth_error_None in E. congruence. }
  constructor; cbn [hs_heap hs_objs hs_props vs_objs vs_props].
  - apply R.
  - intros j Hj. destruct (r_ok _ _ _ R j Hj) as (X1 & X2 & X3). unfold okobj. rewrite (proj2 (O j Hj)). repeat split; [lia|exact X2|].
    intros x Hx. specialize (X3 x Hx). lia.
  - intros j k Hj Hk Hn x. rewrite (proj2 (O j Hj)), (proj2 (O k Hk)). now apply (r_sep _ _ _ R).
  - pose proof (r_db _ _ _ R) as S. unfold db_shown in *.
    assert (V' : forall e, In e db -> view h' (snd e) = view (hs_heap s) (snd e)).
    { intros e He. apply V. apply in_or_app. left. now apply in_map. }
    clear - S V'. revert S V'. generalize all_std_objects. intros t S. induction S as [|e f d t (S1 & S2) S IH]; intros V'; constructor.
    + split; [exact S1|]. rewrite V' by (now left). exact S2.
    + apply IH. intros y Hy. apply V'. now right.
  - rewrite <- (r_objs _ _ _ R). apply map_ext_in. intros j Hj. apply V. apply in_or_app. now right.
  - intros j Hj. rewrite V by (apply in_or_app; now right). now apply (r_hb _ _ _ R).
  - apply (Permutation_NoDup (Permutation_cons_append _ _)). constructor; [|apply R].
    intros H. apply In_nth_error in H. destruct H as (p & Hp). apply P in Hp. lia.
  - rewrite !app_length. cbn. now rewrite (r_len _ _ _ R).
  - intros p x w Hp Hw. destruct (Nat.lt_ge_cases p (length (hs_props s))) as [H|H].
    + rewrite nth_error_app1 in Hp by exact H. rewrite nth_error_app1 in Hw by (now rewrite <- (r_len _ _ _ R)).
      pose proof (r_props _ _ _ R p x w Hp Hw) as (X1 & X2). split; [lia|]. destruct w as [q'|o k].
      * destruct X2 as (X2 & X3). split; [rewrite (grows_val _ _ _ G X1); exact X2|]. intros j Hj. rewrite (proj2 (O j Hj)). auto.
      * destruct X2 as (i' & Y1 & Y2). exists i'. split; [exact Y1|]. unfold h_get in *. rewrite (proj1 (O i' (live_of db s o i' Y1))). exact Y2.
    + rewrite nth_error_app2 in Hp by exact H. rewrite nth_error_app2 in Hw by (now rewrite <- (r_len _ _ _ R)).
      rewrite <- (r_len _ _ _ R) in Hw. destruct (p - length (hs_props s)) as [|n]; [|destruct n; discriminate].
      cbn in Hp, Hw. assert (x = l) by congruence. assert (w = VLoose q) by congruence. subst x w.
      split; [lia|]. split; [exact Hq|]. intros j Hj Hx. rewrite (proj2 (O j Hj)) in Hx. apply (r_ok _ _ _ R j Hj) in Hx. lia.
Qed.
(** A write to a property that is on its own. *)
Lemma rel_loose db s v p l q q' : rel db s v -> nth_error (hs_props s) p = Some l -> nth_error (vs_props v) p = Some (VLoose q) ->
  rel db (mkhs (put_val l q' (hs_heap s)) (hs_objs s) (hs_props s)) (mkvs (vs_objs v) (upd (vs_props v) p (VLoose q'))).
Proof.
  intros R Hp Hw. pose proof (r_props _ _ _ R p l _ Hp Hw) as (X1 & X2 & X3).
  set (h' := put_val l q' (hs_heap s)).
  assert (W : forall x, hval h' x = if x =? l then q' else hval (hs_heap s) x).
  { intros x. unfold h', put_val. rewrite hval_put_prop by exact X1. reflexivity. }
  assert (O : forall j, hobj_at h' j = hobj_at (hs_heap s) j) by reflexivity.
  assert (L : forall j, locs h' j = locs (hs_heap s) j) by reflexivity.
  assert (N : length (h_props h') = length (h_props (hs_heap s))) by apply upd_len.
  assert (V : forall j, In j (map snd db ++ hs_objs s) -> view h' j = view (hs_heap s) j).
  { intros j Hj. apply view_ext; [reflexivity|]. intros x Hx. rewrite W. destruct (x =? l) eqn:E; [|reflexivity].
    apply Nat.eqb_eq in E. subst x. now destruct (X3 j Hj). }
  constructor; cbn [hs_heap hs_objs hs_props vs_objs vs_props].
  - apply R.
  - intros j Hj. destruct (r_ok _ _ _ R j Hj) as (Y1 & Y2 & Y3). unfold okobj. rewrite L, N. auto.
  - intros j k Hj Hk Hn x. rewrite !L. now apply (r_sep _ _ _ R).
  - pose proof (r_db _ _ _ R) as S. unfold db_shown in *.
    assert (V' : forall e, In e db -> view h' (snd e) = view (hs_heap s) (snd e)).
    { intros e He. apply V. apply in_or_app. left. now apply in_map. }
    clear - S V'. revert S V'. generalize all_std_objects. intros t S. induction S as [|e f d t (S1 & S2) S IH]; intros V'; constructor.
    + split; [exact S1|]. rewrite V' by (now left). exact S2.
    + apply IH. intros y Hy. apply V'. now right.
  - rewrite <- (r_objs _ _ _ R). apply map_ext_in. intros j Hj. apply V. apply in_or_app. now right.
  - intros j Hj. rewrite V by (apply in_or_app; now right). now apply (r_hb _ _ _ R).
  - apply R.
  - rewrite upd_len. apply R.
  - intros p' x w Hp' Hw'. rewrite nth_error_upd in Hw'. destruct (p' =? p) eqn:E.
    + apply Nat.eqb_eq in E. subst p'. assert (x = l) by congruence. subst x.
      assert (Lt : p <? length (vs_props v) = true) by (apply Nat.ltb_lt; apply nth_error_Some; congruence).
      rewrite Lt in Hw'. cbn [andb] in Hw'. assert (w = VLoose q') by congruence. subst w.
      split; [now rewrite N|]. split; [rewrite W, Nat.eqb_refl; reflexivity|exact X3].
    + cbn [andb] in Hw'. pose proof (r_props _ _ _ R p' x w Hp' Hw') as (Y1 & Y2). split; [now rewrite N|].
      destruct w as [q2|o k]; [|exact Y2]. destruct Y2 as (Y2 & Y3). split; [|exact Y3]. rewrite W.
      destruct (x =? l) eqn:E2; [|exact Y2]. apply Nat.eqb_eq in E2. subst x. exfalso.
      apply Nat.eqb_neq in E. apply E. refine (proj1 (NoDup_nth_error _) (r_nodup _ _ _ R) _ _ _ _); [apply nth_error_Some; congruence|congruence].
Qed.

Lemma replaced_gone k l x (d : list (Z * nat)) : NoDup (map snd d) -> zget k d = Some x -> x <> l -> ~ In x (map snd (zset k l d)).
Proof.
  induction d as [|[a b] d IH]; [discriminate|]. cbn [map snd dget dset]. intros Hn Hg Hx. inversion Hn as [|? ? H1 H2]; subst.
  destruct (k =? a)%Z; cbn [map snd In].
  - assert (b = x) by congruence. subst b. intros [H|H]; [congruence|contradiction].
  - intros [->|H]; [|now apply IH in H]. apply H1. apply dget_in in Hg; [|exact zeqb_eq]. now apply (in_map snd) in Hg.
Qed.
Lemma upd_upd {A} (l : list A) o x y : upd (upd l o x) o y = upd l o y.
Proof. revert o; induction l as [|z l IH]; intros [|o]; cbn; auto. now rewrite IH. Qed.
Lemma vobj_at db s v o i : rel db s v -> nth_error (hs_objs s) o = Some i -> vobj v o = view (hs_heap s) i.
Proof.
  intros R H. pose proof (rel_nth _ _ _ o R) as E. rewrite H in E. cbn [option_map] in E. unfold vobj.
  now apply nth_error_nth.
Qed.
Lemma vval_at db s v p l w : rel db s v -> nth_error (hs_props s) p = Some l -> nth_error (vs_props v) p = Some w ->
  vval v w = hval (hs_heap s) l.
Proof.
  intros R Hp Hw. pose proof (r_props _ _ _ R p l w Hp Hw) as (_ & X). destruct w as [q|o k]; cbn [vval].
  - symmetry. apply X.
  - destruct X as (i & Y1 & Y2). rewrite (vobj_at _ _ _ _ _ R Y1), view_get, Y2. reflexivity.
Qed.
(** Adding a property that is on its own. *)
Lemma rel_add db s v o i p l q : rel db s v -> nth_error (hs_objs s) o = Some i -> nth_error (hs_props s) p = Some l ->
  nth_error (vs_props v) p = Some (VLoose q) ->
  let h' := h_add_base l i (hs_heap s) in
  rel db (mkhs h' (hs_objs s) (hs_props s))
    (mkvs (upd (vs_objs v) o (view h' i)) (upd (map (vdetach v o (op_code q)) (vs_props v)) p (VAt o (op_code q)))).
Proof.
  intros R Ho Hp Hw h'. pose proof (r_props _ _ _ R p l _ Hp Hw) as (X1 & X2 & X3).
  pose proof (live_of db s o i Ho) as Hi. pose proof (r_ok _ _ _ R i Hi) as K. pose proof (X3 i Hi) as Hn.
  destruct (add_base_ok l i (hs_heap s) K X1 Hn) as (K' & _ & Q). fold h' in K', Q.
  assert (W : forall x, hval h' x = hval (hs_heap s) x) by (intros x; now apply add_base_val).
  assert (O : forall j, j <> i -> hobj_at h' j = hobj_at (hs_heap s) j).
  { intros j Hj. unfold h'. rewrite add_base_obj by apply K. apply Nat.eqb_neq in Hj. now rewrite Hj. }
  assert (L : forall j, j <> i -> locs h' j = locs (hs_heap s) j) by (intros j Hj; unfold locs; now rewrite O).
  destruct (add_base_len l i (hs_heap s)) as (N1 & N2). fold h' in N1, N2.
  assert (V : forall j, j <> i -> view h' j = view (hs_heap s) j) by (intros j Hj; apply view_ext; auto).
  constructor; cbn [hs_heap hs_objs hs_props vs_objs vs_props].
  - apply R.
  - intros j Hj. destruct (Nat.eq_dec j i) as [->|H]; [exact K'|]. destruct (r_ok _ _ _ R j Hj) as (Y1 & Y2 & Y3).
    unfold okobj. rewrite L, N1, N2 by exact H. auto.
  - intros j k Hj Hk Hjk x Hx Hy. destruct (Nat.eq_dec j i) as [->|H], (Nat.eq_dec k i) as [->|H2]; try congruence.
    + rewrite L in Hy by exact H2. destruct (Q x Hx) as [->|Hx']; [exact (X3 k Hk Hy)|exact (r_sep _ _ _ R i k Hj Hk Hjk x Hx' Hy)].
    + rewrite L in Hx by exact H. destruct (Q x Hy) as [->|Hy']; [exact (X3 j Hj Hx)|exact (r_sep _ _ _ R j i Hj Hk Hjk x Hx Hy')].
    + rewrite L in Hx by exact H. rewrite L in Hy by exact H2. exact (r_sep _ _ _ R j k Hj Hk Hjk x Hx Hy).
  - pose proof (r_db _ _ _ R) as S. unfold db_shown in *.
    assert (V' : forall e, In e db -> view h' (snd e) = view (hs_heap s) (snd e)).
    { intros e He. apply V. apply (rel_apart _ _ _ i R); [now apply nth_error_In in Ho|exact He]. }
    clear - S V'. revert S V'. generalize all_std_objects. intros t S. induction S as [|e f d t (S1 & S2) S IH]; intros V'; constructor.
    + split; [exact S1|]. rewrite V' by (now left). exact S2.
    + apply IH. intros y Hy. apply V'. now right.
  - rewrite <- (r_objs _ _ _ R). apply (map_upd_one (view (hs_heap s)) (view h')); [exact (nodup_app_r _ _ (r_live _ _ _ R))|exact Ho|].
    intros j _ Hj. auto.
  - intros j Hj. destruct (Nat.eq_dec j i) as [->|H]; [|rewrite V by exact H; now apply (r_hb _ _ _ R)].
    pose proof (r_hb _ _ _ R i Hj) as X. unfold hb in *. change (o_handler (view h' i)) with (o_handler (ho_val (hobj_at h' i))).
    unfold h'. rewrite add_base_obj, Nat.eqb_refl by apply K. exact X.
  - apply R.
  - rewrite upd_len, map_length. apply R.
  - intros p' x w Hp' Hw'. rewrite nth_error_upd, map_length in Hw'. destruct (p' =? p) eqn:E.
    + apply Nat.eqb_eq in E. subst p'. assert (x = l) by congruence. subst x.
      assert (Lt : p <? length (vs_props v) = true) by (apply Nat.ltb_lt; apply nth_error_Some; congruence).
      rewrite Lt in Hw'. cbn [andb] in Hw'. assert (w = VAt o (op_code q)) by congruence. subst w.
      split; [now rewrite N1|]. exists i. split; [exact Ho|]. unfold h_get, h'. rewrite add_base_obj, Nat.eqb_refl by apply K.
      cbn [ho_dict]. rewrite X2. apply zget_zset_same.
    + cbn [andb] in Hw'. rewrite nth_error_map in Hw'. destruct (nth_error (vs_props v) p') as [w0|] eqn:Ew; [|discriminate].
      cbn [option_map] in Hw'. assert (w = vdetach v o (op_code q) w0) by congruence. subst w. clear Hw'.
      assert (Xl : x <> l).
      { intros ->. apply Nat.eqb_neq in E. apply E.
        refine (proj1 (NoDup_nth_error _) (r_nodup _ _ _ R) _ _ _ _); [apply nth_error_Some; congruence|congruence]. }
      pose proof (vval_at _ _ _ _ _ _ R Hp' Ew) as Vw.
      pose proof (r_props _ _ _ R p' x w0 Hp' Ew) as (Y1 & Y2). split; [now rewrite N1|].
      destruct w0 as [q2|o' k']; cbn [vdetach].
      * destruct Y2 as (Y2 & Y3). split; [now rewrite W|]. intros j Hj Hx.
        destruct (Nat.eq_dec j i) as [->|H]; [|rewrite L in Hx by exact H; exact (Y3 j Hj Hx)].
        destruct (Q x Hx) as [->|Hx']; [congruence|exact (Y3 i Hi Hx')].
      * destruct Y2 as (i' & Z1 & Z2). destruct (o' =? o) eqn:Eo; cbn [andb].
        -- apply Nat.eqb_eq in Eo. subst o'. assert (i' = i) by congruence. subst i'.
           destruct (k' =? op_code q)%Z eqn:Ek.
           ++ apply Z.eqb_eq in Ek. subst k'. split; [rewrite W; symmetry; exact Vw|]. intros j Hj Hx.
              destruct (Nat.eq_dec j i) as [->|H].
              ** revert Hx. unfold locs, h'. rewrite add_base_obj, Nat.eqb_refl by apply K. cbn [ho_dict]. rewrite X2.
                 apply replaced_gone; [apply K|exact Z2|exact Xl].
              ** rewrite L in Hx by exact H. apply (r_sep _ _ _ R i j Hi Hj) with x; [congruence|exact (get_loc _ _ _ _ Z2)|exact Hx].
           ++ exists i. split; [exact Ho|]. unfold h_get, h'. rewrite add_base_obj, Nat.eqb_refl by apply K. cbn [ho_dict]. rewrite X2.
              rewrite zget_zset_other; [exact Z2|]. now apply Z.eqb_neq.
        -- exists i'. split; [exact Z1|]. unfold h_get. rewrite O; [exact Z2|]. intros ->. apply Nat.eqb_neq in Eo. apply Eo.
           refine (proj1 (NoDup_nth_error _) (nodup_app_r _ _ (r_live _ _ _ R)) _ _ _ _); [apply nth_error_Some; congruence|congruence].
Qed.

Section Step.
Context {PS : PySet}.
Lemma rel_eta db s v : rel db s v -> rel db (mkhs (hs_heap s) (hs_objs s) (hs_props s)) (mkvs (vs_objs v) (vs_props v)).
Proof. destruct s, v. auto. Qed.
Lemma rel_keep_obj db s v o i x : rel db s v -> nth_error (hs_objs s) o = Some i -> x = view (hs_heap s) i -> upd (vs_objs v) o x = vs_objs v.
Proof. intros R Ho ->. apply upd_nth_same. rewrite (rel_nth _ _ _ o R), Ho. reflexivity. Qed.
Lemma rel_ready db s v : rel db s v -> db_ready db (hs_heap s).
Proof.
  intros R. split; [apply R|]. intros e He. assert (Hl : In (snd e) (map snd db ++ hs_objs s)) by (apply in_or_app; left; now apply in_map).
  destruct (r_ok _ _ _ R _ Hl) as (A & _ & C). auto.
Qed.
Lemma built_plain h o : o_props o = [] -> built h (h_new o h, Ok tt) (o, Ok tt).
Proof.
  intros Ho. pose proof (built_asim o h (fun h _ => (h, Ok tt)) (fun o => (o, Ok tt)) Ho) as B.
  destruct (h_new o h) as [h1 i]. apply B. intros. now apply asim_ret.
Qed.
Lemma hval_put_same h l q : l < length (h_props h) -> hval (put_val l q h) l = q.
Proof. intros H. unfold put_val. rewrite hval_put_prop, Nat.eqb_refl by exact H. reflexivity. Qed.

Lemma rel_step db s v c : rel db s v -> fair v c ->
  rel db (fst (hstep db s c)) (fst (vstep v c)) /\ snd (hstep db s c) = snd (vstep v c).
Proof.
  intros R F. destruct c as [a|a|a|a|r|r|o|code data|p|p data|p typ attr|p|o p|o code data|o code typ attr|o code|o codes|o m|a code data];
    unfold hstep, vstep; cbv zeta.
  - pose proof (built_plain (hs_heap s) (new_object a) eq_refl) as B. destruct (h_new (new_object a) (hs_heap s)) as [h' i].
    cbn [fst snd]. split; [|reflexivity]. exact (rel_built _ _ _ _ _ _ _ R B I).
  - pose proof (built_plain (hs_heap s) (new_super_object a) eq_refl) as B. destruct (h_new (new_super_object a) (hs_heap s)) as [h' i].
    cbn [fst snd]. split; [|reflexivity]. exact (rel_built _ _ _ _ _ _ _ R B I).
  - pose proof (built_standard db a (hs_heap s) (rel_ready _ _ _ R)) as B. pose proof (hb_standard a) as Hb.
    destruct (h_new_standard db a (hs_heap s)) as [[h' i] r]. destruct (new_standard a) as [x r'].
    assert (r' = r) by (destruct B as (_ & _ & E & _); congruence). subst r'. cbn [fst snd] in *. split; [|reflexivity].
    exact (rel_built _ _ _ _ _ _ _ R B Hb).
  - pose proof (built_profile db a (hs_heap s) (rel_ready _ _ _ R)) as B. pose proof (hb_profile a) as Hb.
    destruct (h_new_profile db a (hs_heap s)) as [[h' i] r]. destruct (new_profile a) as [x r'].
    assert (r' = r) by (destruct B as (_ & _ & E & _); congruence). subst r'. cbn [fst snd] in *. split; [|reflexivity].
    exact (rel_built _ _ _ _ _ _ _ R B Hb).
  - pose proof (built_node db r (hs_heap s) (rel_ready _ _ _ R)) as B. pose proof (hb_node r) as Hb.
    destruct (h_new_node_profile db r (hs_heap s)) as [[h' i] y]. destruct (new_node_profile r) as [x y'].
    assert (y' = y) by (destruct B as (_ & _ & E & _); congruence). subst y'. cbn [fst snd] in *. split; [|reflexivity].
    exact (rel_built _ _ _ _ _ _ _ R B Hb).
  - pose proof (built_readonly db r (hs_heap s) (rel_ready _ _ _ R)) as B. pose proof (hb_readonly r) as Hb.
    destruct (h_new_readonly db r (hs_heap s)) as [[h' i] y]. destruct (new_node_profile_readonly r) as [x y'].
    assert (y' = y) by (destruct B as (_ & _ & E & _); congruence). subst y'. cbn [fst snd] in *. split; [|reflexivity].
    exact (rel_built _ _ _ _ _ _ _ R B Hb).
  - (* copy *) rewrite (rel_nth _ _ _ o R). destruct (nth_error (hs_objs s) o) as [i|] eqn:Ho; cbn [option_map]; [|now split].
    pose proof (built_copy i (hs_heap s) (r_ok _ _ _ R i (live_of db s o i Ho))) as B.
    destruct (h_copy_object i (hs_heap s)) as [h' j]. cbn [fst snd]. split; [|reflexivity].
    exact (rel_built _ _ _ _ _ _ _ R B (hb_copy_object _)).
  - (* property *) cbn [fst snd]. split; [|reflexivity]. apply (rel_new_prop _ _ _ _ _ _ R).
    + exists [(new_property code data, None)], []. split; [reflexivity|now rewrite app_nil_r].
    + cbn. rewrite app_length. cbn. lia.
    + unfold hval, alloc_prop. cbn. rewrite app_nth2, Nat.sub_diag by lia. reflexivity.
  - (* copy of a property *) destruct (nth_error (hs_props s) p) as [l|] eqn:Hp.
    + destruct (nth_error (vs_props v) p) as [w|] eqn:Hw.
      2: { apply nth_error_None in Hw. rewrite <- (r_len _ _ _ R) in Hw. apply nth_error_None in Hw. congruence. }
      pose proof (r_props _ _ _ R p l w Hp Hw) as (X & _). pose proof (deepcopy_spec l (hs_heap s) X) as D.
      destruct (deepcopy l (hs_heap s)) as [h' l']. destruct D as (G & D1 & D2). cbn [fst snd]. split; [|reflexivity].
      apply (rel_new_prop _ _ _ _ _ _ R G D1). rewrite D2. symmetry. exact (vval_at _ _ _ _ _ _ R Hp Hw).
    + assert (Hw : nth_error (vs_props v) p = None) by (apply nth_error_None; rewrite <- (r_len _ _ _ R); now apply nth_error_None). rewrite Hw. now split.
  - (* p.data = *) destruct (nth_error (hs_props s) p) as [l|] eqn:Hp.
    + destruct (nth_error (vs_props v) p) as [w|] eqn:Hw.
      2: { apply nth_error_None in Hw. rewrite <- (r_len _ _ _ R) in Hw. apply nth_error_None in Hw. congruence. }
      pose proof (r_props _ _ _ R p l w Hp Hw) as (X & Y). cbn [fst snd]. split; [|reflexivity]. unfold h_put_data.
      destruct w as [q|o k]; cbn [vchange].
      * rewrite (proj1 Y). exact (rel_loose _ _ _ _ _ _ _ R Hp Hw).
      * destruct Y as (i & Y1 & Y2). destruct (put_change _ _ _ _ (set_op_data data) (r_ok _ _ _ R i (live_of db s o i Y1)) Y2) as (T & V).
        rewrite (vobj_at _ _ _ _ _ R Y1), <- V. exact (rel_touch _ _ _ _ _ _ R Y1 T).
    + assert (Hw : nth_error (vs_props v) p = None) by (apply nth_error_None; rewrite <- (r_len _ _ _ R); now apply nth_error_None). rewrite Hw. now split.
  - (* p.set_attribute *) destruct (nth_error (hs_props s) p) as [l|] eqn:Hp.
    + destruct (nth_error (vs_props v) p) as [w|] eqn:Hw.
      2: { apply nth_error_None in Hw. rewrite <- (r_len _ _ _ R) in Hw. apply nth_error_None in Hw. congruence. }
      pose proof (vval_at _ _ _ _ _ _ R Hp Hw) as Vw. rewrite Vw.
      pose proof (r_props _ _ _ R p l w Hp Hw) as (X & Y). unfold h_set_attribute.
      destruct (set_attribute typ attr (hval (hs_heap s) l)) as [q' r] eqn:Ea. cbn [fst snd]. split; [|reflexivity].
      assert (Eq : q' = (fun q => fst (set_attribute typ attr q)) (hval (hs_heap s) l)) by (cbv beta; now rewrite Ea).
      rewrite Eq. clear Eq Ea q'. destruct w as [q|o k]; cbn [vchange].
      * rewrite (proj1 Y). exact (rel_loose _ _ _ _ _ _ _ R Hp Hw).
      * destruct Y as (i & Y1 & Y2).
        destruct (put_change _ _ _ _ (fun q => fst (set_attribute typ attr q)) (r_ok _ _ _ R i (live_of db s o i Y1)) Y2) as (T & V).
        rewrite (vobj_at _ _ _ _ _ R Y1), <- V. exact (rel_touch _ _ _ _ _ _ R Y1 T).
    + assert (Hw : nth_error (vs_props v) p = None) by (apply nth_error_None; rewrite <- (r_len _ _ _ R); now apply nth_error_None). rewrite Hw. now split.
  - (* p.data *) destruct (nth_error (hs_props s) p) as [l|] eqn:Hp.
    + destruct (nth_error (vs_props v) p) as [w|] eqn:Hw.
      2: { apply nth_error_None in Hw. rewrite <- (r_len _ _ _ R) in Hw. apply nth_error_None in Hw. congruence. }
      rewrite (vval_at _ _ _ _ _ _ R Hp Hw). cbn [fst snd]. split; [|reflexivity]. destruct s, v. exact R.
    + assert (Hw : nth_error (vs_props v) p = None) by (apply nth_error_None; rewrite <- (r_len _ _ _ R); now apply nth_error_None). rewrite Hw. now split.
  - (* add *) rewrite (rel_nth _ _ _ o R). destruct (nth_error (hs_objs s) o) as [i|] eqn:Ho; cbn [option_map]; [|now split].
    destruct (nth_error (hs_props s) p) as [l|] eqn:Hp.
    2: { assert (Hw : nth_error (vs_props v) p = None) by (apply nth_error_None; rewrite <- (r_len _ _ _ R); now apply nth_error_None). rewrite Hw. now split. }
    destruct (nth_error (vs_props v) p) as [w|] eqn:Hw.
    2: { apply nth_error_None in Hw. rewrite <- (r_len _ _ _ R) in Hw. apply nth_error_None in Hw. congruence. }
    cbn [fair] in F. destruct w as [q|o' k']; [|now destruct (F o' k' Hw)]. clear F. cbn [vval].
    pose proof (r_props _ _ _ R p l _ Hp Hw) as (X1 & X2 & X3). pose proof (live_of db s o i Ho) as Hi.
    pose proof (r_ok _ _ _ R i Hi) as K. pose proof (X3 i Hi) as Hn.
    pose proof (rel_add _ _ _ _ _ _ _ _ R Ho Hp Hw) as RA. cbv zeta in RA.
    destruct (add_base_ok l i (hs_heap s) K X1 Hn) as (K1 & V1 & _). rewrite X2 in V1.
    pose proof (sim_add_super l i (hs_heap s) K X1 Hn) as (T & E). rewrite X2 in E.
    assert (RS : rel db (mkhs (fst (h_add_super l i (hs_heap s))) (hs_objs s) (hs_props s))
       (mkvs (upd (vs_objs v) o (view (fst (h_add_super l i (hs_heap s))) i)) (upd (map (vdetach v o (op_code q)) (vs_props v)) p (VAt o (op_code q))))).
    { pose proof (rel_touch _ _ _ _ _ _ RA Ho T) as X. cbn [hs_objs hs_props vs_objs vs_props] in X. rewrite upd_upd in X. exact X. }
    unfold h_add, obj_add_property. change (o_cls (view (hs_heap s) i)) with (o_cls (ho_val (hobj_at (hs_heap s) i))).
    destruct (o_cls (ho_val (hobj_at (hs_heap s) i))).
    + destruct (add_property_base (Some q) (view (hs_heap s) i)) as [x' b] eqn:Ea. cbn [fst] in V1. subst x'.
      assert (b = true) by (unfold add_property_base in Ea; congruence). subst b. cbn [fst snd]. split; [exact RA|reflexivity].
    + rewrite E. destruct (h_add_super l i (hs_heap s)) as [h2 r2]. cbn [fst snd] in *. split; [exact RS|reflexivity].
    + rewrite E. destruct (h_add_super l i (hs_heap s)) as [h2 r2]. cbn [fst snd] in *. split; [exact RS|reflexivity].
    + rewrite E. destruct (h_add_super l i (hs_heap s)) as [h2 r2]. cbn [fst snd] in *. split; [exact RS|reflexivity].
  - (* set_property_data *) rewrite (rel_nth _ _ _ o R). destruct (nth_error (hs_objs s) o) as [i|] eqn:Ho; cbn [option_map]; [|now split].
    pose proof (sim_data (hs_heap s) i code data (r_ok _ _ _ R i (live_of db s o i Ho))) as (T & E). rewrite E.
    destruct (h_set_data code data i (hs_heap s)) as [h' r]. cbn [fst snd] in *. split; [|reflexivity]. exact (rel_touch _ _ _ _ _ _ R Ho T).
  - (* get_property().set_attribute *) rewrite (rel_nth _ _ _ o R). destruct (nth_error (hs_objs s) o) as [i|] eqn:Ho; cbn [option_map]; [|now split].
    rewrite view_get. destruct (h_get code i (hs_heap s)) as [l|] eqn:Eg; cbn [option_map].
    + unfold h_set_attribute. destruct (set_attribute typ attr (hval (hs_heap s) l)) as [q' r] eqn:Ea. cbn [fst snd]. split; [|reflexivity].
      assert (Eq : q' = (fun q => fst (set_attribute typ attr q)) (hval (hs_heap s) l)) by (cbv beta; now rewrite Ea).
      rewrite Eq. clear Eq Ea q'.
      destruct (put_change _ _ _ _ (fun q => fst (set_attribute typ attr q)) (r_ok _ _ _ R i (live_of db s o i Ho)) Eg) as (T & V).
      rewrite <- V. exact (rel_touch _ _ _ _ _ _ R Ho T).
    + cbn [fst snd]. split; [|reflexivity]. destruct s, v. exact R.
  - (* get_property_data *) rewrite (rel_nth _ _ _ o R). destruct (nth_error (hs_objs s) o) as [i|] eqn:Ho; cbn [option_map]; [|now split].
    cbn [fst snd]. split; [destruct s, v; exact R|]. unfold get_property_data, h_get_data.
    pose proof (view_get (hs_heap s) i code) as E. unfold get_property in E. rewrite E. destruct (h_get code i (hs_heap s)); reflexivity.
  - (* update *) rewrite (rel_nth _ _ _ o R). destruct (nth_error (hs_objs s) o) as [i|] eqn:Ho; cbn [option_map]; [|now split].
    pose proof (sim_update_map (hs_heap s) i codes (r_ok _ _ _ R i (live_of db s o i Ho))) as (T & E). rewrite E.
    destruct (h_np_update_map codes i (hs_heap s)) as [h' r]. cbn [fst snd] in *. split; [|reflexivity]. exact (rel_touch _ _ _ _ _ _ R Ho T).
  - (* message *) rewrite (rel_nth _ _ _ o R). destruct (nth_error (hs_objs s) o) as [i|] eqn:Ho; cbn [option_map]; [|now split].
    assert (Hb : builtin (o_handler (ho_val (hobj_at (hs_heap s) i)))) by (apply (r_hb _ _ _ R i); now apply nth_error_In in Ho).
    pose proof (sim_received i (hs_heap s) m (r_ok _ _ _ R i (live_of db s o i Ho)) Hb) as (T & E).
    destruct (obj_message_received (view (hs_heap s) i) m) as [[x told] r']. cbn [drop_told] in E.
    destruct (h_received i m (hs_heap s)) as [h' r]. cbn [fst snd] in *.
    assert (x = view h' i) by congruence. assert (r' = r) by congruence. subst x r'. split; [|reflexivity]. exact (rel_touch _ _ _ _ _ _ R Ho T).
  - destruct F.
Qed.
Lemma rel_run db l : forall s v, rel db s v -> fair_program v l ->
  rel db (fst (hrun db s l)) (fst (vrun v l)) /\ snd (hrun db s l) = snd (vrun v l).
Proof.
  induction l as [|c l IH]; intros s v R F; [now split|]. cbn [fair_program] in F. destruct F as (F1 & F2). cbn [hrun vrun].
  destruct (rel_step db s v c R F1) as (R1 & E1). destruct (hstep db s c) as [s1 a]. destruct (vstep v c) as [v1 a']. cbn [fst snd] in *. subst a'.
  destruct (IH s1 v1 R1 F2) as (R2 & E2). destruct (hrun db s1 l) as [s2 al]. destruct (vrun v1 l) as [v2 al']. cbn [fst snd] in *. split; [exact R2|]. now f_equal.
Qed.
End Step.

(** ** The database on the heap *)
Definition tidy (h : heap) : Prop :=
  (forall i, i < length (h_objs h) -> okobj h i) /\
  (forall i j, i < length (h_objs h) -> j < length (h_objs h) -> i <> j -> forall l, In l (locs h i) -> ~ In l (locs h j)).
Lemma map_snd_combine {A B} (a : list A) (b : list B) : length a = length b -> map snd (combine a b) = b.
Proof. revert b; induction a as [|x a IH]; intros [|y b]; cbn; try discriminate; auto. intros [= E]. now rewrite IH. Qed.
Lemma look_combine h n d : (forall x kp, nth_error d x = Some kp -> hval h (n + x) = snd kp) ->
  look h (combine (map fst d) (seq n (length d))) = d.
Proof.
  revert n; induction d as [|[k p] d IH]; intros n H; [reflexivity|]. cbn [map length seq combine look fst snd].
  f_equal.
  - f_equal. rewrite <- (Nat.add_0_r n) at 1. exact (H 0 (k, p) eq_refl).
  - apply IH. intros x kp Hx. rewrite Nat.add_succ_comm. now apply (H (S x)).
Qed.
Lemma import_spec h o : tidy h -> let h' := import_object h o in
  tidy h' /\ grows h h' /\ length (h_objs h') = S (length (h_objs h)) /\ view h' (length (h_objs h)) = o /\
  (forall i, i < length (h_objs h) -> view h' i = view h i).
Proof.
  intros (T1 & T2) h'.
  assert (G : grows h h') by (unfold h', import_object; eexists; eexists; split; reflexivity).
  assert (N : length (h_objs h') = S (length (h_objs h))) by (unfold h', import_object; cbn; rewrite app_length; cbn; lia).
  assert (P : length (h_props h') = length (h_props h) + length (o_props o)) by (unfold h', import_object; cbn; rewrite app_length, map_length; lia).
  assert (E : hobj_at h' (length (h_objs h)) = mkho (set_o_props [] o) (combine (dkeys (o_props o)) (seq (length (h_props h)) (length (o_props o))))).
  { unfold hobj_at, h', import_object. cbn [h_objs]. rewrite app_nth2, Nat.sub_diag by lia. reflexivity. }
  assert (L : locs h' (length (h_objs h)) = seq (length (h_props h)) (length (o_props o))).
  { unfold locs. rewrite E. cbn [ho_dict]. apply map_snd_combine. unfold dkeys. now rewrite map_length, seq_length. }
  assert (O : forall i, i < length (h_objs h) -> hobj_at h' i = hobj_at h i) by (intros i Hi; now apply grows_at).
  assert (Lo : forall i, i < length (h_objs h) -> locs h' i = locs h i) by (intros i Hi; unfold locs; now rewrite O).
  assert (V : forall i, i < length (h_objs h) -> view h' i = view h i).
  { intros i Hi. apply view_ext; [now apply O|]. intros l Hl. apply grows_val; [exact G|]. now apply (T1 i Hi). }
  split; [split|].
  - intros i Hi. unfold okobj. rewrite N, P. destruct (Nat.eq_dec i (length (h_objs h))) as [->|H].
    + rewrite L. split; [lia|]. split; [apply seq_NoDup|]. intros l Hl. apply in_seq in Hl. lia.
    + assert (Hi' : i < length (h_objs h)) by lia. rewrite Lo by exact Hi'. destruct (T1 i Hi') as (A & B & C). split; [lia|].
      split; [exact B|]. intros l Hl. specialize (C l Hl). lia.
  - intros i j Hi Hj Hn l Hl Hl2. destruct (Nat.eq_dec i (length (h_objs h))) as [->|H], (Nat.eq_dec j (length (h_objs h))) as [->|H2].
    + congruence.
    + rewrite L in Hl. apply in_seq in Hl. rewrite Lo in Hl2 by lia. apply T1 in Hl2; lia.
    + rewrite L in Hl2. apply in_seq in Hl2. rewrite Lo in Hl by lia. apply T1 in Hl; lia.
    + rewrite Lo in Hl by lia. rewrite Lo in Hl2 by lia. apply (T2 i j) with l; auto; lia.
  - split; [exact G|]. split; [exact N|]. split; [|exact V].
    rewrite view_look, E. cbn [ho_dict ho_val]. unfold dkeys. rewrite look_combine; [destruct o; reflexivity|].
    intros x kp Hx. unfold hval, h', import_object. cbn [h_props]. rewrite app_nth2_plus.
    rewrite (nth_error_nth _ _ nil_prop (map_nth_error (fun kp0 : Z * oprop => (snd kp0, Some (length (h_objs h)))) x (o_props o) Hx)). reflexivity.
Qed.
Lemma import_all_spec L : forall h, tidy h -> let h' := fold_left import_object L h in
  tidy h' /\ length (h_objs h') = length (h_objs h) + length L /\
  (forall i, i < length (h_objs h) -> view h' i = view h i) /\
  (forall n o, nth_error L n = Some o -> view h' (length (h_objs h) + n) = o).
Proof.
  induction L as [|o L IH]; intros h T; cbv zeta.
  - cbn [fold_left length]. split; [exact T|]. split; [lia|]. split; [auto|]. intros [|n]; discriminate.
  - cbn [fold_left length]. destruct (import_spec h o T) as (T1 & _ & N & V & V2). destruct (IH _ T1) as (T2 & N2 & W1 & W2).
    rewrite N in *. split; [exact T2|]. split; [lia|]. split.
    + intros i Hi. rewrite W1 by lia. auto.
    + intros [|n] x Hx.
      * cbn in Hx. rewrite Nat.add_0_r, W1 by lia. rewrite V. congruence.
      * rewrite <- Nat.add_succ_comm. now apply W2.
Qed.
Lemma shown_combine h (t : list ((Z * Z) * obj)) : forall m, (forall n o, nth_error (dvals t) n = Some o -> view h (m + n) = o) ->
  Forall2 (fun (e : (Z * Z) * nat) (f : (Z * Z) * obj) => fst e = fst f /\ view h (snd e) = snd f) (combine (dkeys t) (seq m (length t))) t.
Proof.
  induction t as [|[k o] t IH]; intros m H; [constructor|]. cbn [dkeys map length seq combine fst]. constructor.
  - cbn [fst snd]. split; [reflexivity|]. rewrite <- (Nat.add_0_r m). now apply H.
  - apply IH. intros n x Hx. rewrite Nat.add_succ_comm. now apply (H (S n)).
Qed.
Lemma rel_start_t (t : list ((Z * Z) * obj)) : let h := import_all (dvals t) in let db := combine (dkeys t) (seq 0 (length t)) in
  tidy h /\ NoDup (map snd db) /\ (forall i, In i (map snd db) -> i < length (h_objs h)) /\
  Forall2 (fun (e : (Z * Z) * nat) (f : (Z * Z) * obj) => fst e = fst f /\ view h (snd e) = snd f) db t.
Proof.
  cbv zeta. unfold import_all.
  assert (T0 : tidy (mkheap [] [])) by (split; [intros i Hi|intros i j Hi]; cbn in Hi; lia).
  destruct (import_all_spec (dvals t) (mkheap [] []) T0) as (T & N & _ & V). cbn [h_objs length Nat.add] in N, V.
  assert (M : map snd (combine (dkeys t) (seq 0 (length t))) = seq 0 (length t)).
  { apply map_snd_combine. unfold dkeys. now rewrite map_length, seq_length. }
  split; [exact T|]. rewrite M. split; [apply seq_NoDup|]. split.
  - intros i Hi. apply in_seq in Hi. rewrite N. unfold dvals. rewrite map_length. lia.
  - apply shown_combine. exact V.
Qed.
Lemma rel_start : rel db_tables hstart vstart.
Proof.
  pose proof (rel_start_t all_std_objects) as X. cbv zeta in X. destruct X as ((T1 & T2) & Nd & Rg & Sh).
  constructor; cbn [hs_heap hs_objs hs_props vs_objs vs_props hstart vstart].
  - rewrite app_nil_r. exact Nd.
  - rewrite app_nil_r. intros i Hi. exact (T1 i (Rg i Hi)).
  - rewrite app_nil_r. intros i j Hi Hj. exact (T2 i j (Rg i Hi) (Rg j Hj)).
  - exact Sh.
  - reflexivity.
  - intros i [].
  - constructor.
  - reflexivity.
  - intros p l w Hp. destruct p; discriminate.
Qed.
Lemma shown_vals h db (t : list ((Z * Z) * obj)) :
  Forall2 (fun (e : (Z * Z) * nat) (f : (Z * Z) * obj) => fst e = fst f /\ view h (snd e) = snd f) db t -> map (view h) (map snd db) = dvals t.
Proof. induction 1 as [|e f db t (A & B) F IH]; [reflexivity|]. cbn. now rewrite IH, B. Qed.

Lemma L_C80_values : forall (PS : PySet) l, fair_program vstart l ->
  snd (hrun db_tables hstart l) = snd (vrun vstart l) /\
  map (view (hs_heap (fst (hrun db_tables hstart l)))) (hs_objs (fst (hrun db_tables hstart l))) = vs_objs (fst (vrun vstart l)) /\
  map (view (hs_heap (fst (hrun db_tables hstart l)))) (map snd db_tables) = dvals all_std_objects.
Proof.
  intros PS l F. destruct (rel_run db_tables l hstart vstart rel_start F) as (R & E). split; [exact E|]. split; [apply R|].
  apply shown_vals. exact (r_db _ _ _ R).
Qed.

(** Programs outside the condition. *)
Definition twice_added : list cmd :=
  [CObject' (PInt 0x029101); CObject' (PInt 0x029102); CProp 0x80 [0x30%Z]; CAdd 0 0; CAdd 1 0; CData 0 0x80 [0x31%Z]; CRead 1 0x80].
Definition table_written : list cmd :=
  [CDbData (PInt 0x029101) 0xB0 [0x45%Z]; CStandard' (PInt 0x029102); CRead 0 0xB0].
Lemma L_C80_shared_boundary : forall PS : PySet,
  last (snd (hrun db_tables hstart twice_added)) ANone = ABytes (Some [0x31%Z]) /\
  last (snd (vrun vstart twice_added)) ANone = ABytes (Some [0x30%Z]).
Proof. intros PS. split; vm_compute; reflexivity. Qed.
Lemma L_C80_database_boundary : exists PS : PySet,
  snd (hrun db_tables hstart table_written) = [ABool (Ok true); AUnit (Ok tt); ABytes (Some [0x45%Z])] /\
  snd (vrun vstart table_written) = [ABool (Ok true); AUnit (Ok tt); ABytes (Some [])].
Proof. exists pyset_nodup. split; vm_compute; reflexivity. Qed.
