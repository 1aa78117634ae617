(** C127: any controllers of a network call objects of any of its nodes. *)
From Verif Require Import PyBase MsgM PropM ObjM DbM NodeM LocalM CtrlM SpecWire SpecReq SpecNode SpecLocal SpecSrv SpecCtrl SpecEnd SpecSess SpecLife SpecSelf SpecDisc SpecGroup SpecCrowd SpecSolo SpecParley NodeP MapP EndP SessP CrowdP ParleyP PropsDisc PropsCrowd PropsSolo.
From Verif Require Import SpecReq.
Local Open Scope Z_scope.

Theorem C127_ready : forall (PS : PySet) sites ls sched, crowd sites ls ->
  length (crowd_run sched sites) = length sites /\
  (forall k d, nth_error (crowd_run sched sites) k = Some d -> quiet (t_os d) /\ reliable (t_os d) /\ listens (t_node d) /\ 0 <= g_tid (ln_mgr (t_node d)) <= 65535) /\
  forall q c cc d, nth_error sites (q_by q) = Some c -> ln_ctl (t_node c) = Some cc -> nth_error sites (q_to q) = Some d -> told sites (q_to q) (q_by q) sched -> leads (q_dst q) (t_addr d) ->
  (q_jd q < servers_of (t_node d))%nat -> (q_jc q < servers_of (t_node c))%nat -> acquainted (crowd_run sched sites) q.
Proof. exact L_C127_ready. Qed.
Print Assumptions C127_ready.
Theorem C127_kept : forall (PS : PySet) sites ls sched k d d', crowd sites ls -> nth_error sites k = Some d -> nth_error (crowd_run sched sites) k = Some d' ->
  forall code, zget code (ln_objs (t_node d')) = zget code (ln_objs (t_node d)).
Proof. exact L_C127_kept. Qed.
Print Assumptions C127_kept.
Theorem C127_sessions_partial : forall (PS : PySet) l x Ss, settled x Ss -> Forall (acquainted x) l -> parley_ok Ss l ->
  exists x', parley l x = (x', parley_says x (map (fun d => g_tid (ln_mgr (t_node d))) x) Ss l) /\ settled x' (stores_run Ss l).
Proof. exact L_C127_sessions_partial. Qed.
Print Assumptions C127_sessions_partial.
Theorem C127_network_partial : forall (PS : PySet) sites ls sched Ss l, crowd sites ls -> length sites = length Ss ->
  (forall k d Sd, nth_error sites k = Some d -> nth_error Ss k = Some Sd -> mirrors (t_node d) Sd /\ store_ok Sd) ->
  Forall (fun q => exists c cc d, nth_error sites (q_by q) = Some c /\ ln_ctl (t_node c) = Some cc /\ nth_error sites (q_to q) = Some d /\
    told sites (q_to q) (q_by q) sched /\ leads (q_dst q) (t_addr d) /\ (q_jd q < servers_of (t_node d))%nat /\ (q_jc q < servers_of (t_node c))%nat) l -> parley_ok Ss l ->
  let x := crowd_run sched sites in
  exists x', parley l x = (x', parley_says x (map (fun d => g_tid (ln_mgr (t_node d))) x) Ss l) /\ settled x' (stores_run Ss l).
Proof. exact L_C127_network_partial. Qed.
Print Assumptions C127_network_partial.
Theorem C127_seen : forall (PS : PySet) x Ss l1 w l2 r d o p c v n nl, settled x Ss -> Forall (acquainted x) (l1 ++ w :: l2 ++ [r]) -> parley_ok Ss (l1 ++ w :: l2 ++ [r]) ->
  (* after any calls [w] writes a property that may be written and read, and arrives; *)
  nth_error x (q_to w) = Some d -> zget (q_code w) (ln_objs (t_node d)) = Some o -> get_property c o = Some p -> can_read p = true -> may_write (o_handler o) p = true ->
  q_call w = KWrite [mkprop c v] -> (0 < q_req w)%nat ->
  (* the next calls do not write it, *)
  Forall (hands_off (q_to w) (q_code w) c) l2 ->
  (* and [r] reads it: another controller or the same *)
  q_to r = q_to w -> q_code r = q_code w -> q_call r = KRead [c] -> (0 < q_req r)%nat -> q_ans r = S n :: nl ->
  exists x' al m, parley (l1 ++ w :: l2 ++ [r]) x = (x', al ++ [Some m]) /\ m_ESV m = 0x72 /\ m_props m = [mkprop c v] /\ m_from m = Some (t_addr d).
Proof. exact L_C127_seen. Qed.
Print Assumptions C127_seen.
Theorem C127_source_refuted : exists x Ss q c d, settled x Ss /\ acquainted x q /\ parley_ok Ss [q] /\
  nth_error x (q_by q) = Some c /\ nth_error x (q_to q) = Some d /\ q_by q <> q_to q /\ q_code q = 0x029101 /\ q_call q = KRead [0x80] /\
  exists (PS : PySet) x' m c' cc nd o, parley_call x q = (x', Some m) /\ m_ESV m = 0x72 /\ m_props m = [mkprop 0x80 [0x31]] /\ m_SEOJ m = 0x0EF001 /\
  nth_error x' (q_by q) = Some c' /\ ln_ctl (t_node c') = Some cc /\ sget (fst (t_addr d)) (c_found cc) = Some nd /\
  zget 0x0EF001 (n_objs nd) = Some o /\ get_property_data 0x80 o = Some [0x31] /\
  option_map (get_property_data 0x80) (zget 0x0EF001 (ln_objs (t_node d))) = Some (Some [0x30]).
Proof. exact L_C127_source_refuted. Qed.
Print Assumptions C127_source_refuted.

(** The network of the example of C125 after its traffic: the first controller has found all three nodes,
    the second the node with two lamps. *)
Definition py_sites : list site := @crowd_run pyset_nodup cw_sched cw_sites.
Definition py_objs : list (list (Z * obj)) := Eval vm_compute in map (fun d => ln_objs (t_node d)) py_sites.
Lemma py_objs_ok : map (fun d => ln_objs (t_node d)) py_sites = py_objs.
Proof. vm_compute. reflexivity. Qed.
Definition py_store (os : list (Z * obj)) : store := fun k => option_map so_table (zget k os).
Definition py_stores : list store := map py_store py_objs.
Definition py_lamps : dest := DTup ("10.0.0.11"%string, 3610).
Definition py_node : dest := DNode (mknode (Some ("10.0.0.11"%string, 3610)) []).
Definition py_calls : list query :=
  [mkquery 0 2 1 0 py_lamps 0x029107 (KRead [0x80]) 2 [0; 2]%nat; mkquery 1 2 3 1 py_node 0x029107 (KWrite [mkprop 0x80 [0x31]]) 1 []; mkquery 1 2 3 1 py_lamps 0x029107 (KWrite [mkprop 0x80 [0x33]]) 0 [1%nat];
   mkquery 0 2 0 2 py_node 0x029107 (KRead [0x80]) 1 [3%nat]; mkquery 0 0 0 1 (DStr "10.0.0.8") 0x029102 (KWriteRead [mkprop 0x80 [0x33]] [0x80]) 2 [1; 1]%nat; mkquery 0 1 2 2 (DStr "10.0.0.9") 0x0EF001 (KRead [0xD3]) 1 [1%nat];
   mkquery 1 2 0 0 py_lamps 0x029101 (KPost [mkprop 0x80 [0x32]]) 2 [1%nat]; mkquery 0 2 0 0 py_lamps 0x029101 (KRead [0x80; 0xF5]) 1 [1; 5]%nat; mkquery 1 2 0 0 py_lamps 0x029107 (KRead [0x80]) 1 [1%nat]].
Lemma py_lead ip e d : t_addr d = (ip, 3610) -> match e with DTup b => b = (ip, 3610) | DStr i => i = ip | DNode n => n_addr n = Some (ip, 3610) | DOther => False end -> leads e (t_addr d).
Proof. intros ->. destruct e; cbn; [auto|intros ->; reflexivity|eauto|auto]. Qed.
Lemma py_each os : In os py_objs -> forall k o, zget k os = Some o -> o_handler o = HSuper /\ forall c p, get_property c o = Some p -> op_code p = c /\ bytes_ok (op_data p) /\ zlen (op_data p) <= 255.
Proof.
  intros Hi k o H. assert (F : forallb (forallb so_good) py_objs = true) by (vm_compute; reflexivity). rewrite forallb_forall in F. specialize (F os Hi).
  destruct (so_get so_good k _ o H F) as (k' & G & _). apply andb_prop in G as (G1 & G2). cbn [snd] in *. split; [destruct (o_handler o); (reflexivity || discriminate)|].
  intros c p Hp. destruct (so_get _ c _ p Hp G2) as (c' & Q & ->). apply andb_prop in Q as (Q & Q3). apply andb_prop in Q as (Q1 & Q2). split; [now apply Z.eqb_eq|]. split; [|now apply Z.leb_le].
  apply Forall_forall. intros b Hb. rewrite forallb_forall in Q2. specialize (Q2 b Hb). apply andb_prop in Q2 as (A & B). apply Z.leb_le in A. apply Z.ltb_lt in B. split; assumption.
Qed.
Example C127_premises : settled py_sites py_stores /\ Forall (acquainted py_sites) py_calls /\ parley_ok py_stores py_calls.
Proof.
  split; [|split].
  - assert (W : forall k d, nth_error py_sites k = Some d -> quiet (t_os d) /\ reliable (t_os d) /\ listens (t_node d) /\ 0 <= g_tid (ln_mgr (t_node d)) <= 65535)
      by exact (proj1 (proj2 (C127_ready pyset_nodup cw_sites cw_lists cw_sched C125_ex))).
    split; [vm_compute; reflexivity|]. intros k d Sd Hd Hs.
    assert (Ho : nth_error py_objs k = Some (ln_objs (t_node d))) by (rewrite <- py_objs_ok, nth_error_map, Hd; reflexivity).
    unfold py_stores in Hs. rewrite nth_error_map, Ho in Hs. cbn [option_map] in Hs. assert (Sd = py_store (ln_objs (t_node d))) as -> by congruence. clear Hs.
    destruct (W k d Hd) as (W1 & W2 & W3 & W4). do 4 (split; [assumption|]). apply nth_error_In in Ho. pose proof (py_each _ Ho) as E. split.
    + intros c. unfold py_store. destruct (zget c (ln_objs (t_node d))) as [o|] eqn:G; [|exact Logic.I]. destruct (E c o G) as (A & B). cbn [option_map].
      split; [left; exact A|]. split; [intros i p Hp; exact (proj1 (B i p Hp))|]. intros i. reflexivity.
    + intros c t i l Hs Ht. unfold py_store in Hs. destruct (zget c (ln_objs (t_node d))) as [o|] eqn:G; [|discriminate]. cbn [option_map] in Hs. assert (t = so_table o) as -> by congruence.
      unfold so_table in Ht. destruct (get_property i o) as [p|] eqn:P; [|discriminate]. cbn [option_map] in Ht. destruct (E c o G) as (_ & B). destruct (B i p P) as (_ & B2). injection Ht as <-. exact B2.
  - unfold py_calls. repeat constructor; (do 2 eexists; split; [vm_compute; reflexivity|]; split; [vm_compute; reflexivity|]; split; [do 2 eexists; split; vm_compute; reflexivity|split; [eapply py_lead; [vm_compute; reflexivity|reflexivity]|split; apply Nat.ltb_lt; vm_compute; reflexivity]]).
  - unfold py_calls. cbn [parley_ok]. repeat match goal with |- (exists _, _) /\ _ => split; [eexists; split; [reflexivity|split; [|intros [|[|j]] Hj; try (exfalso; cbn in Hj; lia)]]|] end; try exact Logic.I;
    (split; [cbn; lia|]; split; [split; [unfold byte_ok; cbn; lia|vm_compute; repeat split; repeat constructor; discriminate]|];
     split; [repeat constructor; unfold byte_ok; lia|]; split; [repeat constructor; unfold byte_ok; lia|]; split; [apply Nat.leb_le; vm_compute; reflexivity|];
     vm_compute; repeat split; try discriminate; try lia).
Qed.
(** The second controller switches a lamp that the first then reads, although the answer to the second is
    lost, and some datagrams arrive several times; only the node that is not a controller names the object that was asked. *)
Example C127_ex :
  map (option_map (fun m => (m_TID m, m_SEOJ m, m_ESV m, map p_data (m_props m ++ m_sets m ++ m_gets m), option_map fst (m_from m)))) (snd (@parley pyset_nodup py_calls py_sites)) =
  [Some (2, 0x029107, 0x72, [[0x30]], Some "10.0.0.11"%string); None; None; Some (3, 0x029107, 0x72, [[0x31]], Some "10.0.0.11"%string);
   Some (4, 0x0EF001, 0x7E, [[]; [0x33]], Some "10.0.0.8"%string); Some (5, 0x0EF001, 0x72, [[0; 0; 0]], Some "10.0.0.9"%string);
   None; Some (6, 0x029101, 0x52, [[0x32]; []], Some "10.0.0.11"%string); Some (5, 0x029107, 0x72, [[0x31]], Some "10.0.0.11"%string)].
Proof. vm_compute. reflexivity. Qed.
Example C127_network_premises : length cw_sites = length py_stores /\
  (forall k d Sd, nth_error cw_sites k = Some d -> nth_error py_stores k = Some Sd -> mirrors (t_node d) Sd /\ store_ok Sd) /\
  Forall (fun q => exists c cc d, nth_error cw_sites (q_by q) = Some c /\ ln_ctl (t_node c) = Some cc /\ nth_error cw_sites (q_to q) = Some d /\
    @told pyset_nodup cw_sites (q_to q) (q_by q) cw_sched /\ leads (q_dst q) (t_addr d) /\ (q_jd q < servers_of (t_node d))%nat /\ (q_jc q < servers_of (t_node c))%nat) py_calls.
Proof.
  assert (Kp : forall k d d', nth_error cw_sites k = Some d -> nth_error py_sites k = Some d' -> forall code, zget code (ln_objs (t_node d')) = zget code (ln_objs (t_node d))).
  { intros k d d' Hd. unfold py_sites. exact (C127_kept pyset_nodup cw_sites cw_lists cw_sched k d d' C125_ex Hd). }
  destruct C127_premises as ((Le & Se) & _). split; [|split].
  - vm_compute. reflexivity.
  - intros k d Sd Hd Hs. destruct (nth_error py_sites k) as [d'|] eqn:E; [|apply nth_error_None in E; rewrite Le in E; apply nth_error_None in E; congruence].
    destruct (Se k d' Sd E Hs) as (_ & _ & _ & _ & M & St). split; [|exact St]. intros code. specialize (M code). rewrite (Kp k d d' Hd E code) in M. exact M.
  - assert (T : forall i k m n j, nth_error cw_sched m = Some (Pass i n k j) ->
      match nth_error (@crowd_run pyset_nodup (firstn m cw_sched) cw_sites) i, nth_error cw_sites k with
      | Some p, Some d => (j <? servers_of (t_node d))%nat && match nth_error (outbox p) n with Some (_, a) => addr_eqb a (t_addr d) | None => false end
      | _, _ => false end = true -> @told pyset_nodup cw_sites i k cw_sched).
    { intros i k m n j Hm H. destruct (nth_error _ i) as [p|] eqn:P in H; [|discriminate]. destruct (nth_error cw_sites k) as [d|] eqn:D; [|discriminate].
      apply andb_prop in H as (Hj & H). destruct (nth_error (outbox p) n) as [[b a]|] eqn:O; [|discriminate].
      exists (firstn m cw_sched), n, j, (skipn (S m) cw_sched), p, d, b. split; [|split; [exact P|split; [exact D|split; [apply Nat.ltb_lt; exact Hj|]]]].
      - rewrite <- (firstn_skipn m cw_sched) at 1. f_equal. clear - Hm. revert m Hm. induction cw_sched as [|e r IH]; intros [|m] Hm; try discriminate; [cbn in *; congruence|exact (IH m Hm)].
      - assert (a = t_addr d) as -> by exact (addr_eqb_eq _ _ H). exact O. }
    assert (T20 : @told pyset_nodup cw_sites 2 0 cw_sched) by (apply (T 2 0 8 0 0)%nat; vm_compute; reflexivity).
    assert (T21 : @told pyset_nodup cw_sites 2 1 cw_sched) by (apply (T 2 1 9 1 3)%nat; vm_compute; reflexivity).
    assert (T10 : @told pyset_nodup cw_sites 1 0 cw_sched) by (apply (T 1 0 10 2 1)%nat; vm_compute; reflexivity).
    assert (T00 : @told pyset_nodup cw_sites 0 0 cw_sched) by (apply (T 0 0 11 2 0)%nat; vm_compute; reflexivity).
    unfold py_calls. repeat (constructor; [do 3 eexists; split; [reflexivity|split; [vm_compute; reflexivity|split; [reflexivity|split; [assumption|split; [eapply py_lead; [vm_compute; reflexivity|reflexivity]|split; apply Nat.ltb_lt; vm_compute; reflexivity]]]]]|]). constructor.
Qed.
(** The lamp that the second controller has switched in [py_calls], and the call of the first that reads it. *)
Example C127_seen_ex : exists l1 w l2 r d o p,
  firstn 4 py_calls = l1 ++ w :: l2 ++ [r] /\ q_by w = 1%nat /\ q_by r = 0%nat /\ length l1 = 1%nat /\ length l2 = 1%nat /\
  nth_error py_sites (q_to w) = Some d /\ zget (q_code w) (ln_objs (t_node d)) = Some o /\ get_property 0x80 o = Some p /\ can_read p = true /\ may_write (o_handler o) p = true /\
  q_call w = KWrite [mkprop 0x80 [0x31]] /\ (0 < q_req w)%nat /\ Forall (hands_off (q_to w) (q_code w) 0x80) l2 /\
  q_to r = q_to w /\ q_code r = q_code w /\ q_call r = KRead [0x80] /\ (0 < q_req r)%nat /\ q_ans r = [3%nat].
Proof.
  exists [mkquery 0 2 1 0 py_lamps 0x029107 (KRead [0x80]) 2 [0; 2]%nat], (mkquery 1 2 3 1 py_node 0x029107 (KWrite [mkprop 0x80 [0x31]]) 1 []),
    [mkquery 1 2 3 1 py_lamps 0x029107 (KWrite [mkprop 0x80 [0x33]]) 0 [1%nat]], (mkquery 0 2 0 2 py_node 0x029107 (KRead [0x80]) 1 [3%nat]).
  do 3 eexists. do 5 (split; [reflexivity|]). do 5 (split; [vm_compute; reflexivity|]). split; [reflexivity|]. split; [cbn; lia|]. split; [constructor; [left; reflexivity|constructor]|].
  do 3 (split; [reflexivity|]). split; [cbn; lia|reflexivity].
Qed.
