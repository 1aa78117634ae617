(** Lemmas for C120. *)
From Verif Require Import PyBase BytesM EsvM MsgM PropM ObjM DbData DbM NodeM LocalM CtrlM AddrM DestM
  SpecWire SpecObj SpecMap SpecReq SpecNode SpecLocal SpecDest DictP BytesP WireP CodecP ObjP MapP ReqP NodeP ProfP LocalP AnswerP.
Require Import ZifyBool.

Lemma to_bytes_to a m : to_bytes (set_to a m) = to_bytes m.
Proof. destruct m; reflexivity. Qed.
Lemma to_string_to a m : to_string (set_to a m) = to_string m.
Proof. destruct m; reflexivity. Qed.

(** ** The same as the other models *)
Lemma d_sendto_good w tr i b h p : 0 <= p <= 65535 ->
  d_sendto w tr i b h (VInt p) = (tr ++ [EvSend i b (h, p) (os_sendto w tr i b (h, p))],
    match os_sendto w tr i b (h, p) with Err e => RRaise (XLib e) | Ok n => RBool (negb (n <=? 0)) end).
Proof.
  intros H. unfold d_sendto. change (2 ^ 31) with 2147483648.
  match goal with |- context[negb ?x] => replace (negb x) with false by lia end. cbn iota. replace ((0 <=? p) && (p <=? 65535)) with true by lia. reflexivity.
Qed.
Lemma d_server_same w bs tr s m x h p : host_of bs x = Some h -> 0 <= p <= 65535 ->
  let '(tr1, m1, r) := server_send w tr s m (Some (h, p)) in
  d_server_send w bs tr s m (VTuple [x; VInt p]) = (tr1, if s_open s then Some (VTuple [x; VInt p]) else None, lift r) /\
  m1 = if s_open s then set_to (Some (h, p)) m else m.
Proof.
  intros Hx Hp. unfold server_send, d_server_send, server_transmit. rewrite Hx. destruct (s_open s); cbn [negb]; [|split; reflexivity].
  rewrite to_string_to, to_bytes_to. destruct (to_string m); [|split; reflexivity]. destruct (to_bytes m) as [b|]; [|split; reflexivity].
  rewrite (d_sendto_good w tr (s_if s) b h p Hp). destruct (os_sendto w tr (s_if s) b (h, p)); split; reflexivity.
Qed.
Lemma server_send_to w tr s m a b : server_send w tr s (set_to b m) (Some a) =
  let '(tr1, m1, r) := server_send w tr s m (Some a) in (tr1, if s_open s then m1 else set_to b m, r).
Proof.
  unfold server_send, server_transmit. destruct (s_open s); cbn [negb]; [|reflexivity]. replace (set_to (Some a) (set_to b m)) with (set_to (Some a) m) by (destruct m; reflexivity).
  destruct (to_string (set_to (Some a) m)); [|reflexivity]. destruct (to_bytes (set_to (Some a) m)) as [k|]; [|reflexivity]. destruct (os_sendto w tr (s_if s) k a); reflexivity.
Qed.
Definition marked (a : addr) (to : option pyval) (m : msg) : msg := match to with Some _ => set_to (Some a) m | None => m end.
Lemma d_loop_same w bs x h p l : host_of bs x = Some h -> 0 <= p <= 65535 -> forall tr m to,
  let '(tr1, m1, r) := send_loop w tr l (marked (h, p) to m) (Some (h, p)) in
  exists to1, d_send_loop w bs tr l m to (VTuple [x; VInt p]) = (tr1, to1, lift r) /\ m1 = marked (h, p) to1 m.
Proof.
  intros Hx Hp. induction l as [|s l IH]; intros tr m to; cbn [send_loop d_send_loop]; [exists to; split; reflexivity|].
  destruct (s_uni s); [|apply IH].
  pose proof (d_server_same w bs tr s m x h p Hx Hp) as S.
  assert (E : server_send w tr s (marked (h, p) to m) (Some (h, p)) =
    let '(tr1, m1, r) := server_send w tr s m (Some (h, p)) in (tr1, if s_open s then m1 else marked (h, p) to m, r)).
  { unfold marked. destruct to; [apply server_send_to|]. destruct (s_open s) eqn:O; [destruct (server_send w tr s m (Some (h, p))) as [[? ?] ?]; reflexivity|]. unfold server_send. rewrite O. reflexivity. }
  rewrite E. clear E. destruct (server_send w tr s m (Some (h, p))) as [[tr1 m1] r]. destruct S as (-> & ->).
  set (to2 := match (if s_open s then Some (VTuple [x; VInt p]) else None) with Some _ => (if s_open s then Some (VTuple [x; VInt p]) else None) | None => to end).
  assert (M : (if s_open s then (if s_open s then set_to (Some (h, p)) m else m) else marked (h, p) to m) = marked (h, p) to2 m).
  { unfold to2. destruct (s_open s); reflexivity. }
  rewrite M. destruct r as [[|]|e]; cbn [lift].
  - exists to2. split; reflexivity.
  - apply IH.
  - exists to2. split; reflexivity.
Qed.
Lemma d_send_same w bs tr s m d c x h p : ln_ctl s = Some c -> handed_on true d = VTuple [x; VInt p] -> host_of bs x = Some h -> 0 <= p <= 65535 ->
  let '(s', tr', m', r) := ctl_send w tr s m (DTup (h, p)) in
  exists m1 to, d_send w bs tr s m d = (s', tr', m1, to, lift r) /\ m' = match to with Some _ => set_to (Some (h, p)) m1 | None => m1 end.
Proof.
  intros C H Hx Hp. unfold ctl_send, local_send, d_send, mgr_send, d_mgr_send. rewrite C, H. cbn [dest_addr].
  destruct (assign_TID (ln_mgr s) (set_SEOJ NODE_PROFILE_CODE m)) as [g1 m1].
  pose proof (d_loop_same w bs x h p (g_servers g1) Hx Hp tr m1 None) as L. change (marked (h, p) None m1) with m1 in L.
  set (Q := send_loop w tr (g_servers g1) m1 (Some (h, p))) in L. match goal with |- context[send_loop ?a ?b ?c ?d ?e] => change (send_loop a b c d e) with Q end.
  destruct Q as [[tr1 m2] r]. destruct L as (to1 & -> & ->). exists m1, to1. split; reflexivity.
Qed.
Lemma names_handed d h p : names d h p -> handed_on true d = VTuple [VStr h; VInt p] /\ 0 <= p <= 65535.
Proof. intros N. destruct N; (split; [reflexivity|lia]). Qed.

Lemma L_C120_same : forall w bs tr s m d c h p, ln_ctl s = Some c -> names d h p ->
  (let '(s', tr', m', r) := ctl_send w tr s m (DTup (h, p)) in
   exists m1 to, d_send w bs tr s m d = (s', tr', m1, to, lift r) /\ m' = match to with Some _ => set_to (Some (h, p)) m1 | None => m1 end) /\
  (let '(s1, tr', m', r) := post_begin w tr s m (DTup (h, p)) in
   exists s' c' m1 to, d_post w bs tr s m d = (s', tr', m1, to, lift r) /\ ln_node s' = ln_node s1 /\ ln_mgr s' = ln_mgr s1 /\ m' = match to with Some _ => set_to (Some (h, p)) m1 | None => m1 end /\
     ln_ctl s' = Some c' /\ c_req c' = Some m1 /\ c_resp c' = None /\ c_found c' = c_found c /\ c_listeners c' = c_listeners c).
Proof.
  intros w bs tr s m d c h p C N. destruct (names_handed d h p N) as (H & Hp).
  pose proof (d_send_same w bs tr s m d c (VStr h) h p C H eq_refl Hp) as S. split; [exact S|].
  unfold post_begin, d_post. rewrite C. destruct (ctl_send w tr s m (DTup (h, p))) as [[[s' tr'] m'] r]. destruct S as (m1 & to & -> & ->).
  eexists _, _, m1, to. split; [reflexivity|]. split; [reflexivity|]. split; [reflexivity|]. split; [reflexivity|]. split; [destruct s'; reflexivity|]. destruct c; repeat split.
Qed.

(** ** Everything else *)
Lemma d_server_events w bs tr s m v tr1 to r : d_server_send w bs tr s m v = (tr1, to, r) ->
  exists evs, tr1 = tr ++ evs /\ forall e, In e evs -> exists x h p b q, v = VTuple [x; VInt p] /\ host_of bs x = Some h /\ 0 <= p <= 65535 /\ e = EvSend (s_if s) b (h, p) q.
Proof.
  assert (N : forall t, exists evs, t = t ++ evs /\ forall e : event, In e evs -> exists x h p b q, v = VTuple [x; VInt p] /\ host_of bs x = Some h /\ 0 <= p <= 65535 /\ e = EvSend (s_if s) b (h, p) q).
  { intros t. exists []. rewrite app_nil_r. split; [reflexivity|intros e []]. }
  intros H. unfold d_server_send in H. destruct v as [[|x [|y [|]]]| | |]; try (injection H as <- <- <-; apply N).
  destruct (negb (s_open s)); [injection H as <- <- <-; apply N|]. destruct (host_of bs x) as [h|] eqn:Hx; [|injection H as <- <- <-; apply N].
  destruct (to_string m); [|injection H as <- <- <-; apply N]. destruct (to_bytes m) as [b|]; [|injection H as <- <- <-; apply N].
  destruct (d_sendto w tr (s_if s) b h y) as [tr2 r2] eqn:D. injection H as <- <- <-. unfold d_sendto in D. destruct y as [| |p|]; try (injection D as <- <-; apply N).
  destruct (negb _); [injection D as <- <-; apply N|]. destruct ((0 <=? p) && (p <=? 65535)) eqn:P.
  - injection D as <- <-. eexists. split; [reflexivity|]. intros e [<-|[]]. do 5 eexists. split; [reflexivity|]. split; [exact Hx|]. split; [lia|reflexivity].
  - destruct (os_resolve w tr h); injection D as <- <-; apply N.
Qed.
Lemma d_loop_events w bs v l : forall tr m to tr1 to1 r, d_send_loop w bs tr l m to v = (tr1, to1, r) ->
  exists evs, tr1 = tr ++ evs /\ forall e, In e evs -> exists x h p i b q, v = VTuple [x; VInt p] /\ host_of bs x = Some h /\ 0 <= p <= 65535 /\ e = EvSend i b (h, p) q.
Proof.
  induction l as [|s l IH]; intros tr m to tr1 to1 r H; cbn [d_send_loop] in H.
  - injection H as <- <- <-. exists []. rewrite app_nil_r. split; [reflexivity|intros e []].
  - destruct (s_uni s); [|exact (IH _ _ _ _ _ _ H)]. destruct (d_server_send w bs tr s m v) as [[tr2 to2] x] eqn:D.
    destruct (d_server_events _ _ _ _ _ _ _ _ _ D) as (e1 & -> & A1).
    assert (G1 : forall e, In e e1 -> exists x h p i b q, v = VTuple [x; VInt p] /\ host_of bs x = Some h /\ 0 <= p <= 65535 /\ e = EvSend i b (h, p) q).
    { intros e He. destruct (A1 e He) as (x0 & h & p & b & q & A & B & C & E). exists x0, h, p, (s_if s), b, q. repeat split; try assumption; lia. }
    destruct x as [[|]|x].
    + injection H as <- <- <-. exists e1. split; [reflexivity|exact G1].
    + destruct (IH _ _ _ _ _ _ H) as (e2 & -> & A2). exists (e1 ++ e2). split; [symmetry; apply app_assoc|]. intros e He. apply in_app_iff in He. destruct He as [He|He]; [exact (G1 e He)|exact (A2 e He)].
    + injection H as <- <- <-. exists e1. split; [reflexivity|exact G1].
Qed.
Lemma L_C120_sent : forall w bs tr s m d c s' tr' m' to r, ln_ctl s = Some c -> real d -> d_send w bs tr s m d = (s', tr', m', to, r) ->
  exists evs, tr' = tr ++ evs /\ forall e, In e evs -> exists i b h p q, e = EvSend i b (h, p) q /\ (names d h p \/ taken bs d h p).
Proof.
  intros w bs tr s m d c s' tr' m' to r C R H. unfold d_send, d_mgr_send in H. rewrite C in H. destruct (assign_TID _ _) as [g1 m1].
  destruct (d_send_loop w bs tr (g_servers g1) m1 None (handed_on true d)) as [[tr1 to1] x] eqn:L. injection H as <- <- <- <- <-.
  destruct (d_loop_events _ _ _ _ _ _ _ _ _ _ L) as (evs & -> & A). exists evs. split; [reflexivity|]. intros e He.
  destruct (A e He) as (x0 & h & p & i & b & q & E & Hx & Hp & ->). exists i, b, h, p, q. split; [reflexivity|].
  destruct d as [n|v]; cbn [handed_on real] in *.
  - injection E as E1 E2. destruct R as [->|(y & z & ->)]; cbn in E1, E2.
    + subst x0. injection E2 as <-. cbn in Hx. injection Hx as <-. right. constructor.
    + subst x0. injection E2 as <-. destruct y as [l|k|z0|k]; try discriminate; cbn in Hx; [injection Hx as <-; left; constructor|right; now constructor].
  - destruct v as [l|k|z|k]; try discriminate.
    + injection E as ->. destruct x0 as [l|k|z0|k]; try discriminate; cbn in Hx; [injection Hx as <-; left; now constructor|right; now constructor].
    + injection E as <- <-. cbn in Hx. injection Hx as <-. left. constructor.
Qed.

Lemma no_pair_loop w bs l : forall tr m to v, (forall x y, v <> VTuple [x; y]) -> d_send_loop w bs tr l m to v = (tr, to, RBool false).
Proof.
  induction l as [|s l IH]; intros tr m to v N; cbn [d_send_loop]; [reflexivity|]. destruct (s_uni s); [|now apply IH].
  assert (E : d_server_send w bs tr s m v = (tr, None, RBool false)).
  { unfold d_server_send. destruct v as [[|x [|y [|]]]| | |]; try reflexivity. exfalso. now apply (N x y). }
  rewrite E. now apply IH.
Qed.
Lemma L_C120_refused_partial : forall w bs tr s m d, foreign d ->
  exists s' m', d_send w bs tr s m d = (s', tr, m', None, RBool false) /\
    ln_node s' = ln_node s /\ ln_ctl s' = ln_ctl s /\ g_servers (ln_mgr s') = g_servers (ln_mgr s) /\
    (ln_ctl s <> None -> exists s2, d_post w bs tr s m d = (s2, tr, m', None, RBool false) /\ ln_node s2 = ln_node s /\ ln_mgr s2 = ln_mgr s').
Proof.
  intros w bs tr s m d F.
  assert (N : forall c x y, handed_on c d <> VTuple [x; y]).
  { intros c x y E. destruct d as [n|v]; [destruct F|]. destruct v as [l|k|z|k]; try discriminate; [|destruct F]. cbn in E. injection E as ->. destruct F. }
  assert (S : exists s' m', d_send w bs tr s m d = (s', tr, m', None, RBool false) /\
    ln_node s' = ln_node s /\ ln_ctl s' = ln_ctl s /\ g_servers (ln_mgr s') = g_servers (ln_mgr s)).
  { unfold d_send, d_mgr_send. match goal with |- context[assign_TID ?g ?k] => destruct (assign_stamped g k) as (g' & t & -> & _ & G) end.
    rewrite (no_pair_loop w bs (g_servers g') tr _ None _ (N _)). eexists _, _. split; [reflexivity|]. cbn [set_ln_mgr ln_node ln_ctl ln_mgr]. rewrite G. repeat split. }
  destruct S as (s' & m' & S & A & B & C). exists s', m'. repeat split; try assumption. intros K. unfold d_post. rewrite S. destruct (ln_ctl s); [|congruence]. eexists. split; [reflexivity|]. split; [exact A|reflexivity].
Qed.

Lemma L_C120_items_refuted : forall w bs tr s m c x y, ln_ctl s = Some c -> open_ifs s <> [] -> encodable m ->
  let outcome r := exists s' m' to, d_send w bs tr s m (TVal (VTuple [x; y])) = (s', tr, m', to, RRaise r) in
  (no_host bs x -> outcome (XLib AttributeError)) /\
  (forall h, x = VStr h -> no_port y -> outcome XType) /\
  (forall h p, x = VStr h -> y = VInt p -> ~ 0 <= p <= 65535 -> (forall e, os_resolve w tr h <> Err e) -> outcome XOverflow).
Proof.
  intros w bs tr s m c x y C O E outcome.
  assert (G : forall r, (forall s0 k, s_open s0 = true -> encodable k -> exists to, d_server_send w bs tr s0 k (VTuple [x; y]) = (tr, to, RRaise r)) -> outcome r).
  { intros r H. unfold outcome, d_send, d_mgr_send. rewrite C. cbn [handed_on].
    destruct (assign_stamped (ln_mgr s) (set_SEOJ NODE_PROFILE_CODE m)) as (g' & t & -> & _ & Gs). rewrite Gs.
    assert (L : exists to1, d_send_loop w bs tr (g_servers (ln_mgr s)) (set_TID t (set_SEOJ NODE_PROFILE_CODE m)) None (VTuple [x; y]) = (tr, to1, RRaise r)).
    { assert (Ek : encodable (set_TID t (set_SEOJ NODE_PROFILE_CODE m))) by (destruct m; exact E). revert Ek. generalize (set_TID t (set_SEOJ NODE_PROFILE_CODE m)) as k. intros k Ek.
      unfold open_ifs in O. clear Gs outcome C. revert O. generalize (@None pyval) as to. induction (g_servers (ln_mgr s)) as [|v l IH]; intros to O; [contradiction O; reflexivity|].
      cbn [filter d_send_loop] in *. destruct (s_uni v); cbn [andb] in O; [|now apply IH]. destruct (s_open v) eqn:So.
      - destruct (H v k So Ek) as (to1 & ->). eexists. reflexivity.
      - assert (Z : d_server_send w bs tr v k (VTuple [x; y]) = (tr, None, RBool false)) by (unfold d_server_send; rewrite So; reflexivity). rewrite Z. apply IH. exact O. }
    destruct L as (to1 & ->). do 3 eexists. reflexivity. }
  assert (T : forall k, encodable k -> exists b, to_bytes k = Ok b /\ to_string k = Ok (to_hex_upper b)).
  { intros k Ek. exists (wire k). unfold to_string. rewrite (to_bytes_ok k Ek). split; reflexivity. }
  split; [|split].
  - intros N. apply G. intros v k So Ek. unfold d_server_send. rewrite So. cbn [negb].
    assert (Hx : host_of bs x = None) by (destruct x; try reflexivity; [destruct N|exact N]). rewrite Hx. eexists. reflexivity.
  - intros h -> N. apply G. intros v k So Ek. unfold d_server_send. rewrite So. cbn [negb host_of]. destruct (T k Ek) as (b & Tb & Ts). rewrite Ts, Tb.
    destruct y as [l|q|z|q]; try (destruct N); eexists; reflexivity.
  - intros h p -> -> N R. apply G. intros v k So Ek. unfold d_server_send. rewrite So. cbn [negb host_of]. destruct (T k Ek) as (b & Tb & Ts). rewrite Ts, Tb.
    unfold d_sendto. destruct (negb _); [eexists; reflexivity|]. replace ((0 <=? p) && (p <=? 65535)) with false by lia.
    destruct (os_resolve w tr h) as [ip|e] eqn:Rs; [eexists; reflexivity|]. exfalso. exact (R e eq_refl).
Qed.

(** ** get_node *)
Lemma d_get_none w tr v l : (forall s, v <> VStr s) -> (forall s r, v <> VTuple (VStr s :: r)) -> v <> VTuple [] -> d_get_loop w tr l v = Ok None.
Proof.
  intros A B C. induction l as [|[k n] l IH]; [reflexivity|]. cbn [d_get_loop].
  destruct v as [[|[t|s|z|q] r]|s|z|q]; try exact IH; exfalso; [now apply C|now apply (B s r)|now apply (A s)].
Qed.
Lemma L_C120_get_partial : forall w tr c,
  (forall s, d_get w tr c (VStr s) = get_node w tr c (GAStr s)) /\
  (forall s r, d_get w tr c (VTuple (VStr s :: r)) = get_node w tr c (GATup s)) /\
  (forall v, (forall s, v <> VStr s) -> (forall s r, v <> VTuple (VStr s :: r)) -> v <> VTuple [] -> d_get w tr c v = Ok None).
Proof.
  intros w tr c. unfold d_get, get_node. split; [|split].
  - intros s. induction (c_found c) as [|[k n] l IH]; [reflexivity|]. cbn [d_get_loop get_node_loop]. destruct (String.eqb s k); [reflexivity|].
    destruct (os_resolve w tr s) as [ip|e]; cbn [bindr]; [|reflexivity]. destruct (String.eqb ip k); [reflexivity|exact IH].
  - intros s r. induction (c_found c) as [|[k n] l IH]; [reflexivity|]. cbn [d_get_loop get_node_loop]. destruct (String.eqb s k); [reflexivity|exact IH].
  - intros v A B C. now apply d_get_none.
Qed.
Lemma L_C120_get_refuted : forall w tr c, d_get w tr c (VTuple []) = match ctl_nodes c with [] => Ok None | _ => Err IndexError end.
Proof. intros w tr c. unfold d_get, ctl_nodes. destruct (c_found c) as [|[k n] l]; reflexivity. Qed.

(** ** A node that is no controller *)
Lemma L_C120_local_boundary : forall w bs tr s m d, ln_ctl s = None -> (forall x y, d <> TVal (VTuple [x; y])) ->
  exists s' m', d_send w bs tr s m d = (s', tr, m', None, RBool false).
Proof.
  intros w bs tr s m d C N. unfold d_send, d_mgr_send. rewrite C. destruct (assign_TID _ _) as [g1 m1].
  rewrite no_pair_loop; [eexists _, _; reflexivity|]. intros x y E. destruct d as [n|v]; [discriminate|]. destruct v; try discriminate. cbn in E. apply (N x y). now rewrite E.
Qed.
Lemma first_send w a l tr m tr' m' r : filter (fun v => s_uni v && s_open v) l <> [] -> encodable m -> send_loop w tr l m (Some a) = (tr', m', r) ->
  exists i b q rest, tr' = tr ++ EvSend i b a q :: rest.
Proof.
  intros F E H. destruct (send_loop_ok w a l tr m E) as (snds & tr1 & m1 & r1 & H1 & -> & (T & _) & _). rewrite H1 in H.
  assert (tr' = tr ++ map ev_of snds) by congruence. subst tr'. unfold ifs_of in T. destruct (filter _ l) as [|v l']; [contradiction F; reflexivity|]. cbn [map] in T.
  inversion T; subst; cbn [map ev_of]; do 4 eexists; reflexivity.
Qed.
Lemma L_C120_nowhere_refuted : forall w bs tr s m c, ln_ctl s = Some c -> open_ifs s <> [] -> encodable m ->
  exists s' m' to r i b q rest, d_send w bs tr s m (TNode []) = (s', tr ++ EvSend i b (""%string, 0) q :: rest, m', to, r).
Proof.
  intros w bs tr s m c C O E.
  pose proof (d_send_same w bs tr s m (TNode []) c (VStr "") "" 0 C eq_refl eq_refl ltac:(lia)) as S.
  destruct (ctl_send w tr s m (DTup (""%string, 0))) as [[[s' tr'] m'] r] eqn:CS. destruct S as (m1 & to & D & _). rewrite D.
  unfold ctl_send, local_send, mgr_send in CS. cbn [dest_addr] in CS.
  match type of CS with context[assign_TID ?g ?k] => destruct (assign_stamped g k) as (g1 & t & A & _ & Gs) end. rewrite A, Gs in CS.
  destruct (send_loop w tr (g_servers (ln_mgr s)) _ _) as [[tr1 m2] r2] eqn:L.
  assert (tr1 = tr') by congruence. subst tr1.
  apply first_send in L; [|unfold open_ifs in O; intros K; apply O; try rewrite K; reflexivity|destruct (ln_ctl s), m; exact E].
  destruct L as (i & b & q & rest & ->). do 8 eexists. reflexivity.
Qed.
