(** C126: a controller uses its own objects through the network. *)
From Verif Require Import PyBase MsgM PropM ObjM DbM NodeM LocalM CtrlM SpecWire SpecReq SpecNode SpecLocal SpecSrv SpecCtrl SpecEnd SpecSess SpecLife SpecSelf SpecDisc SpecGroup SpecCrowd SpecSolo NodeP MapP EndP SessP SoloP PropsDisc PropsCrowd.
From Verif Require Import SpecReq.
Local Open Scope Z_scope.

Theorem C126_ready : forall (PS : PySet) sites ls sched k d c j j', crowd sites ls ->
  nth_error sites k = Some d -> ln_ctl (t_node d) = Some c -> told sites k k sched ->
  (j < servers_of (t_node d))%nat -> (j' < servers_of (t_node d))%nat ->
  exists d', nth_error (crowd_run sched sites) k = Some d' /\ t_os d' = t_os d /\ t_addr d' = t_addr d /\ at_home j j' (t_addr d) (t_node d').
Proof. exact L_C126_ready. Qed.
Print Assumptions C126_ready.
Theorem C126_session_partial : forall (PS : PySet) w jd jc a d s tr S l,
  quiet w -> reliable w -> dest_addr d = Some a -> at_home jd jc a s ->
  mirrors s S -> store_ok S -> session_ok S l ->
  exists s' tr', solo_client w jd jc a d l (s, tr) = (s', tr', solo_replies a (next_tid s) S l) /\
  at_home jd jc a s' /\ mirrors s' (store_run S l).
Proof. exact L_C126_session_partial. Qed.
Print Assumptions C126_session_partial.
Theorem C126_source_refuted : exists w jd jc a d s S code k,
  quiet w /\ reliable w /\ dest_addr d = Some a /\ at_home jd jc a s /\ mirrors s S /\ store_ok S /\ call_ok S code k /\
  exists (PS : PySet) s' tr' m c nd o, solo_post w jd jc a (request code k) d (s, []) = (s', tr', Some m) /\
  k = KRead [0x80] /\ code = 0x029101 /\ m_ESV m = 0x72 /\ m_props m = [mkprop 0x80 [0x31]] /\ m_SEOJ m = 0x0EF001 /\
  ln_ctl s' = Some c /\ sget (fst a) (c_found c) = Some nd /\ zget 0x0EF001 (n_objs nd) = Some o /\ get_property_data 0x80 o = Some [0x31] /\
  option_map (get_property_data 0x80) (zget 0x0EF001 (ln_objs s')) = Some (Some [0x30]).
Proof. exact L_C126_source_refuted. Qed.
Print Assumptions C126_source_refuted.

(** A controller with a lamp searches, hears its own search twice and its own answers, and then uses the
    lamp and its node profile. *)
Definition so_site : site := cw_site true "10.0.0.8" [2].
Definition so_sched : list stir := [Ask 0; Pass 0 0 0 1; Pass 0 1 0 0; Pass 0 2 0 0]%nat.
Definition so_node : lnode := match @crowd_run pyset_nodup so_sched [so_site] with [d] => t_node d | _ => t_node so_site end.
Definition so_addr : addr := ("10.0.0.8"%string, 3610).
Definition so_table (o : obj) : table := fun c => option_map (cell_of (o_handler o)) (get_property c o).
Definition so_objs : list (Z * obj) := Eval vm_compute in ln_objs so_node.
Lemma so_objs_ok : ln_objs so_node = so_objs.
Proof. vm_compute. reflexivity. Qed.
Definition so_store : store := fun k => option_map so_table (zget k so_objs).
Definition so_calls : list (Z * call) :=
  [(0x029102, KRead [0x80]); (0x029102, KWrite [mkprop 0x80 [0x31]]); (0x029102, KRead [0x80]); (0x0EF001, KRead [0xD3]);
   (0x029102, KPost [mkprop 0x80 [0x32]]); (0x029102, KWriteRead [mkprop 0x80 [0x33]] [0x80]); (0x013001, KRead [0x80])].
Definition so_good (e : Z * obj) : bool :=
  match o_handler (snd e) with HSuper => true | _ => false end &&
  forallb (fun '(c, p) => (op_code p =? c) && forallb (fun b => (0 <=? b) && (b <? 256)) (op_data p) && (zlen (op_data p) <=? 255)) (o_props (snd e)).
Lemma so_get {A} (f : Z * A -> bool) k : forall l v, zget k l = Some v -> forallb f l = true -> exists k', f (k', v) = true /\ k' = k.
Proof.
  induction l as [|[k0 v0] l IH]; intros v; cbn [dget forallb]; [discriminate|]. intros H F. apply andb_prop in F as (F & G).
  destruct (Z.eqb_spec k k0) as [->|N]; [|exact (IH v H G)]. exists k0. split; [|reflexivity]. assert (v0 = v) as -> by congruence. exact F.
Qed.
Lemma so_each k o : zget k so_objs = Some o -> o_handler o = HSuper /\ forall c p, get_property c o = Some p -> op_code p = c /\ bytes_ok (op_data p) /\ zlen (op_data p) <= 255.
Proof.
  intros H. destruct (so_get so_good k _ o H) as (k' & G & _); [vm_compute; reflexivity|]. apply andb_prop in G as (G1 & G2). cbn [snd] in *. split; [destruct (o_handler o); (reflexivity || discriminate)|].
  intros c p Hp. destruct (so_get _ c _ p Hp G2) as (c' & Q & ->). apply andb_prop in Q as (Q & Q3). apply andb_prop in Q as (Q1 & Q2). split; [now apply Z.eqb_eq|]. split; [|now apply Z.leb_le].
  apply Forall_forall. intros b Hb. rewrite forallb_forall in Q2. specialize (Q2 b Hb). apply andb_prop in Q2 as (A & B). apply Z.leb_le in A. apply Z.ltb_lt in B. split; assumption.
Qed.
Example C126_premises : @told pyset_nodup [so_site] 0 0 so_sched /\ at_home 2 2 so_addr so_node /\ mirrors so_node so_store /\ store_ok so_store /\ session_ok so_store so_calls.
Proof.
  split. { exists (firstn 3 so_sched), 2%nat, 0%nat, []. do 3 eexists. split; [reflexivity|]. split; [vm_compute; reflexivity|]. split; [reflexivity|]. split; [apply Nat.ltb_lt; vm_compute; reflexivity|]. vm_compute. reflexivity. }
  assert (O : online so_node 2) by (split; [vm_compute; discriminate|eexists; split; [vm_compute; reflexivity|split; reflexivity]]).
  split. { split; [exact O|]. split; [exact O|]. split; [do 2 eexists; split; vm_compute; reflexivity|vm_compute; split; discriminate]. }
  split. { intros k. rewrite so_objs_ok. unfold so_store. destruct (zget k so_objs) as [o|] eqn:G; [|exact Logic.I]. destruct (so_each k o G) as (A & B). cbn [option_map].
    split; [left; exact A|]. split; [intros c p Hp; exact (proj1 (B c p Hp))|]. intros c. reflexivity. }
  split. { intros k t c l Hs Ht. unfold so_store in Hs. destruct (zget k so_objs) as [o|] eqn:G; [|discriminate]. injection Hs as <-.
    unfold so_table in Ht. destruct (get_property c o) as [p|] eqn:P; [|discriminate]. injection Ht as <-. destruct (so_each k o G) as (_ & B). exact (proj2 (B c p P)). }
  unfold so_calls. cbn [session_ok]. repeat match goal with |- call_ok _ _ _ /\ _ => split end; try exact Logic.I;
  (split; [lia|]; split; [split; [unfold byte_ok; cbn; lia|vm_compute; repeat split; repeat constructor; discriminate]|];
   split; [repeat constructor; unfold byte_ok; lia|]; split; [repeat constructor; unfold byte_ok; lia|]; split; [apply Nat.leb_le; vm_compute; reflexivity|];
   vm_compute; repeat split; try discriminate; try lia).
Qed.
Example C126_ex :
  map (option_map (fun m => (m_TID m, m_SEOJ m, m_ESV m, map p_data (m_props m ++ m_sets m ++ m_gets m))))
    (snd (@solo_client pyset_nodup good_os 2 2 so_addr (DTup so_addr) so_calls (so_node, []))) =
  [Some (2, 0x0EF001, 0x72, [[0x30]]); Some (3, 0x0EF001, 0x71, [[]]); Some (4, 0x0EF001, 0x72, [[0x31]]); Some (5, 0x0EF001, 0x72, [[0; 0; 1]]);
   None; Some (7, 0x0EF001, 0x7E, [[]; [0x33]]); None].
Proof. vm_compute. reflexivity. Qed.
