(** Properties C40, C41 and C43: receiving servers. *)
From Verif Require Import PyBase BytesM MsgM PropM ObjM DbData DbM NodeM LocalM CtrlM
  SpecWire SpecObj SpecReq SpecNode SpecLocal SpecSrv MapP NodeP LocalP AnswerP SrvP.

(** A started node with two user observers, added after the start. *)
Definition ex_s : lnode := fold_left (fun s n => local_add_observer (OUser n) s) [5; 3; 5]%nat
  (fst (fst (local_start good_os [] (mkln (mknode None []) InTable 1 new_manager None) []))).
Definition ex_d (t : Z) : datagram := (read_80 t, ("10.0.0.9"%string, 3610)).
Definition ex_m (t : Z) : msg := set_from (Some (snd (ex_d t))) (mkmsg t 0x05FF01 0x029101 0x62 [mkprop 0x80 []] [] [] None None).
Lemma ex_denotes t : t = 1 \/ t = 2 -> denotes (read_80 t) (mkmsg t 0x05FF01 0x029101 0x62 [mkprop 0x80 []] [] [] None None).
Proof.
  intros H. apply WireP.parse_new_iff; [apply read_80_bytes; lia|]. destruct H as [-> | ->]; vm_compute; reflexivity.
Qed.

(** C40: finding.  A malformed datagram, or an observer that raises, ends the receiving thread.
    Proved: what every sequence of datagrams makes user observers hear, exactly; in particular
    well-formed ones are delivered in order, once, to each observer. *)
Theorem C40_outcome_partial : forall (PS : PySet) w l s tr, quiet w -> no_raise w -> ln_ctl s = None -> fitting_node s ->
  (forall i v, server_at s i = Some v -> ~ In ONone (s_obs v)) ->
  Forall (fun x => bytes_ok (fst (snd x)) /\ forall f, denotes (seen (snd x)) f -> knows_gets s f) l ->
  exists s' evs, run w tr s l = (s', tr ++ evs) /\ hears s [] l (told evs).
Proof. exact L_C40_outcome_partial. Qed.
Print Assumptions C40_outcome_partial.
Theorem C40_delivery_partial : forall (PS : PySet) w l ms s tr, quiet w -> no_raise w -> ln_ctl s = None -> fitting_node s ->
  (forall i v, server_at s i = Some v -> ~ In ONone (s_obs v)) ->
  arrive_all s l ms -> Forall (knows_gets s) ms ->
  exists s' evs, run w tr s l = (s', tr ++ evs) /\ told evs = due s l ms /\ g_servers (ln_mgr s') = g_servers (ln_mgr s).
Proof. exact L_C40_delivery_partial. Qed.
Print Assumptions C40_delivery_partial.
Theorem C40_malformed_refuted : forall (PS : PySet) w tr s i v d rest, server_at s i = Some v -> s_alive v = true ->
  bytes_ok (fst d) -> (length (fst d) <= 1024)%nat -> (~ exists m, denotes (fst d) m) ->
  run w tr s ((i, d) :: map (fun x => (i, x)) rest) = (kill i s, tr).
Proof. exact L_C40_malformed_refuted. Qed.
Print Assumptions C40_malformed_refuted.
Theorem C40_raising_observer_refuted : exists w s i d m n, arrives s i d m /\ due s [(i, d); (i, d)] [m; m] = [(n, m); (n, m)] /\
  forall PS : PySet, told (snd (run w [] s [(i, d); (i, d)])) = [(n, m)].
Proof. exact L_C40_raising_observer_refuted. Qed.
Print Assumptions C40_raising_observer_refuted.
Example C40_ex : quiet good_os /\ no_raise good_os /\ ln_ctl ex_s = None /\ fitting_node ex_s /\
  arrive_all ex_s [(0%nat, ex_d 1); (3%nat, ex_d 2)] [ex_m 1; ex_m 2] /\ knows_gets ex_s (ex_m 1) /\
  due ex_s [(0%nat, ex_d 1); (3%nat, ex_d 2)] [ex_m 1; ex_m 2] =
    [(5%nat, ex_m 1); (3%nat, ex_m 1); (5%nat, ex_m 2); (3%nat, ex_m 2)].
Proof.
  split; [exact good_quiet|]. split; [exact (reliable_no_raise _ good_reliable)|]. split; [reflexivity|]. split; [intros k o E; discriminate|].
  split; [|split; [discriminate|reflexivity]].
  constructor; [|constructor; [|constructor]]; (split; [eexists; split; reflexivity|]); (split; [cbn; lia|]);
    (split; [apply read_80_bytes; lia|]); eexists; (split; [|reflexivity]); apply ex_denotes; auto.
Qed.
(** After a malformed datagram at server 0 only server 3 is heard. *)
Example C40_ex_run :
  told (snd (@run pyset_nodup good_os [] ex_s [(0%nat, ex_d 1); (0%nat, ([0x10; 0x81; 1], snd (ex_d 1))); (0%nat, ex_d 2); (3%nat, ex_d 2)])) =
    [(5%nat, ex_m 1); (3%nat, ex_m 1); (5%nat, ex_m 2); (3%nat, ex_m 2)] /\
  ~ exists m, denotes [0x10; 0x81; 1] m.
Proof.
  split; [vm_compute; reflexivity|]. intros (m & H). apply WireP.parse_new_iff in H; [|repeat constructor; unfold byte_ok; lia].
  vm_compute in H. discriminate.
Qed.

(** C41: finding.  Frames of up to 1024 bytes arrive intact; each longer one is lost and ends the
    receiving thread. *)
Theorem C41_intact_partial : forall (PS : PySet) w tr s i v n m b a, server_at s i = Some v -> s_alive v = true ->
  s_obs v = [OUser n] -> to_bytes m = Ok b -> typed m -> (length b <= 1024)%nat -> quiet w ->
  exists m', deliver w tr s i (b, a) = (s, tr ++ [EvObs n m']) /\ msg_eq m' m = Ok true /\ m_from m' = Some a.
Proof. exact L_C41_intact_partial. Qed.
Print Assumptions C41_intact_partial.
Theorem C41_intact_refuted :
  (exists m b, to_bytes m = Ok b /\ typed m /\ (1024 < length b)%nat) /\
  forall (PS : PySet) w tr s i v m b a, server_at s i = Some v -> s_alive v = true ->
  to_bytes m = Ok b -> typed m -> (1024 < length b)%nat ->
  deliver w tr s i (b, a) = (kill i s, tr).
Proof. exact L_C41_intact_refuted. Qed.
Print Assumptions C41_intact_refuted.
Example C41_ex :
  let s := mkln (new_node None) InTable 1 (mkmgr 0 [mksrv true "10.0.0.2" true true [OUser 4]]) None in
  let m := mkmsg 0x1234 0x05FF01 0x029101 0x6E [] [mkprop 0x80 [0x30]] [mkprop 0xE0 []] None None in
  typed m /\ exists b, to_bytes m = Ok b /\ length b = 18%nat /\
  @deliver pyset_nodup good_os [] s 0 (b, ("10.0.0.9"%string, 3610)) = (s, [EvObs 4 (set_from (Some ("10.0.0.9"%string, 3610)) m)]).
Proof.
  cbn zeta. split; [repeat split; repeat constructor; unfold byte_ok; cbn; lia|]. eexists. split; [vm_compute; reflexivity|]. split; vm_compute; reflexivity.
Qed.

(** C43: finding.  Observers added after a start are registered at every server; every start
    drops those added before. *)
Theorem C43_observer_partial : forall w tr s l s1 tr1 ns, local_start w tr s l = (s1, tr1, Ok true) ->
  let s2 := fold_left (fun s n => local_add_observer (OUser n) s) ns s1 in
  g_servers (ln_mgr s2) <> [] /\
  forall i v, server_at s2 i = Some v -> s_alive v = true /\ users (s_obs v) = firsts Nat.eqb ns /\ ~ In ONone (s_obs v).
Proof. exact L_C43_observer_partial. Qed.
Print Assumptions C43_observer_partial.
Theorem C43_observer_refuted : forall w tr s n l s1 tr1,
  local_start w tr (local_add_observer (OUser n) s) l = (s1, tr1, Ok true) ->
  g_servers (ln_mgr s1) <> [] /\ forall i v, server_at s1 i = Some v -> ~ In (OUser n) (s_obs v) /\ users (s_obs v) = [].
Proof. exact L_C43_observer_refuted. Qed.
Print Assumptions C43_observer_refuted.
Example C43_ex : exists s1 tr1, local_start good_os [] (local_add_observer (OUser 4) (mkln (mknode None []) InTable 1 new_manager None)) [] = (s1, tr1, Ok true) /\
  map s_obs (g_servers (ln_mgr s1)) = [[ONode]; [ONode]; [ONode]; [ONode]] /\
  map s_obs (g_servers (ln_mgr (local_add_observer (OUser 4) s1))) = repeat [ONode; OUser 4] 4.
Proof. do 2 eexists. split; [vm_compute; reflexivity|]. split; vm_compute; reflexivity. Qed.
