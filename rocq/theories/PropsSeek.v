(** Property C114: searching again. *)
From Verif Require Import PyBase MsgM PropM ObjM NodeM LocalM CtrlM
  SpecWire SpecReq SpecNode SpecLocal SpecSrv SpecCtrl SpecEnd SpecDisc SpecSeek SpecField MapP NodeP AnswerP EndP SeekP FieldP.
From Verif Require PropsDisc.

(** C114: what a controller shows after any number of searches. *)
Theorem C114_again : forall (PS : PySet) w a s c tr rs, quiet w -> reliable w -> ln_ctl s = Some c -> 0 <= g_tid (ln_mgr s) <= 65535 -> listens s -> Forall round_ok rs ->
  let s' := fst (search_again w a rs (s, tr)) in
  exists c', ln_ctl s' = Some c' /\ listens s' /\
  (* a node is shown as it answered the last search that it answered *)
  (forall before r after ip a1 l, rs = before ++ r :: after -> replies s r ip a1 l -> (forall r' a2 l2, In r' after -> ~ replies s r' ip a2 l2) ->
     exists nd, (forall w tr, get_node w tr c' (GATup ip) = Ok (Some nd)) /\ depicts nd a1 l) /\
  (* and the others as before *)
  (forall ip, (forall r a1 l, In r rs -> ~ replies s r ip a1 l) -> forall w tr, get_node w tr c' (GATup ip) = get_node w tr c (GATup ip)).
Proof. exact L_C114_again. Qed.
Print Assumptions C114_again.
(** C114: finding.  A node that has left is shown for ever. *)
Theorem C114_left_refuted : forall (PS : PySet) w a s c tr before r after ip a1 l, quiet w -> reliable w -> ln_ctl s = Some c -> 0 <= g_tid (ln_mgr s) <= 65535 -> listens s ->
  Forall round_ok (before ++ r :: after) -> replies s r ip a1 l ->
  (* it is not on the network of any later search *)
  (forall r' d, In r' after -> In d (r_devs r') -> fst (t_addr d) <> ip) ->
  exists c' nd, ln_ctl (fst (search_again w a (before ++ r :: after) (s, tr))) = Some c' /\
  depicts nd a1 l /\ forall w tr, get_node w tr c' (GATup ip) = Ok (Some nd).
Proof. exact L_C114_left_refuted. Qed.
Print Assumptions C114_left_refuted.
(** C114: the same when anything changes at any time and answers are heard late. *)
Theorem C114_field : forall (PS : PySet) w a s c tr devs ls l, quiet w -> reliable w -> ln_ctl s = Some c -> 0 <= g_tid (ln_mgr s) <= 65535 -> listens s ->
  Forall2 hosts devs ls -> (forall k d ls, In (FTurn k d ls) l -> hosts d ls) ->
  let nodes := map (fun x => (t_addr (fst x), snd x, servers_of (t_node (fst x)))) (combine devs ls) in
  let x := field_run l (mkfield (mksite w a s tr (length tr)) [] devs []) in
  let v := view_run (length (open_ifs s)) (servers_of s) l (mkview 0 nodes [] (fun _ => None)) in
  exists c', ln_ctl (t_node (f_ctl x)) = Some c' /\ listens (t_node (f_ctl x)) /\
  (* every node is shown as it was when it gave the answer heard last from its address *)
  (forall ip a1 l1, v_last v ip = Some (a1, l1) -> exists nd, (forall w tr, get_node w tr c' (GATup ip) = Ok (Some nd)) /\ depicts nd a1 l1) /\
  (forall ip, v_last v ip = None -> forall w tr, get_node w tr c' (GATup ip) = get_node w tr c (GATup ip)).
Proof. exact L_C114_field. Qed.
Print Assumptions C114_field.
(** Two nodes; before the second search one gets another device and the other leaves, and its
    address is not taken by the node that comes. *)
Definition sx_first : round := mkround [PropsDisc.dx_site "10.0.0.11" [2; 1]; PropsDisc.dx_site "10.0.0.12" [7]] [[0x029102; 0x029101]; [0x029107]]
  [GoSearch 0 1 0; GoSearch 1 2 1; GoAnswer 0 0 0; GoAnswer 1 3 0].
Definition sx_second : round := mkround [PropsDisc.dx_site "10.0.0.13" [4]; PropsDisc.dx_site "10.0.0.11" [2; 1; 9]] [[0x029104]; [0x029102; 0x029101; 0x029109]]
  [GoSearch 1 1 0; GoAnswer 1 0 0; GoAnswer 0 0 0; GoSearch 0 0 1].
Example C114_ex : Forall (@round_ok pyset_nodup) [sx_first; sx_second] /\
  replies PropsDisc.dx_ctl sx_first "10.0.0.12" ("10.0.0.12"%string, 3610) [0x029107] /\ (forall a l, ~ replies PropsDisc.dx_ctl sx_second "10.0.0.12" a l) /\
  option_map (fun c => map (fun nd => (n_addr nd, map o_code (node_objects nd))) (ctl_nodes c)) (ln_ctl (fst (@search_again pyset_nodup good_os ctl_addr [sx_first; sx_second] (PropsDisc.dx_ctl, [])))) =
  Some [(Some ("10.0.0.11"%string, 3610), [0x0EF001; 0x029102; 0x029101; 0x029109]); (Some ("10.0.0.12"%string, 3610), [0x0EF001; 0x029107])].
Proof.
  split; [|split; [|split; [|vm_compute; reflexivity]]].
  - assert (A : @round_ok pyset_nodup sx_first /\ @round_ok pyset_nodup sx_second); [|exact (Forall_cons _ (proj1 A) (Forall_cons _ (proj2 A) (Forall_nil _)))].
    split; (split; [cbn [map fst t_addr r_devs sx_first sx_second]; repeat constructor; cbn; intuition discriminate|apply Forall2_cons; [|apply Forall2_cons; [|apply Forall2_nil]]]).
    + apply (PropsDisc.dx_hosts "10.0.0.11" [2; 1]); [repeat constructor; lia|vm_compute; reflexivity].
    + apply (PropsDisc.dx_hosts "10.0.0.12" [7]); [repeat constructor; lia|vm_compute; reflexivity].
    + apply (PropsDisc.dx_hosts "10.0.0.13" [4]); [repeat constructor; lia|vm_compute; reflexivity].
    + apply (PropsDisc.dx_hosts "10.0.0.11" [2; 1; 9]); [repeat constructor; lia|vm_compute; reflexivity].
  - exists 1%nat, (PropsDisc.dx_site "10.0.0.12" [7]). do 4 (split; [reflexivity|]). split; [cbn; lia|].
    exists (firstn 3 (r_sched sx_first)), 3%nat, 0%nat, []. split; [reflexivity|]. split; vm_compute; lia.
  - intros a l (k & d & A1 & _ & A3 & A4 & _). destruct k as [|[|[|]]]; cbn [nth_error r_devs sx_second] in A1; [| |discriminate..]; injection A1 as <-; subst a; discriminate.
Qed.
(** The node gets a device and answers both searches; its answers are heard in the other order. *)
Definition sx_events : list happening :=
  [FSearch; FGo 0 1 0; FTurn 0 (PropsDisc.dx_site "10.0.0.11" [2; 1; 9]) [0x029102; 0x029101; 0x029109]; FSearch; FGo 0 2 3; FBack 3 1; FBack 0 7; FBack 1 0].
Example C114_field_ex :
  let start := mkfield (mksite good_os ctl_addr PropsDisc.dx_ctl [] 0) [] [PropsDisc.dx_site "10.0.0.11" [2; 1]] [] in
  let shown l := option_map (fun c => map (fun nd => (n_addr nd, map o_code (node_objects nd))) (ctl_nodes c)) (ln_ctl (t_node (f_ctl (@field_run pyset_nodup l start)))) in
  let view l := view_run 2 4 l (mkview 0 [(("10.0.0.11"%string, 3610), [0x029102; 0x029101], 4%nat)] [] (fun _ => None)) in
  @hosts pyset_nodup (PropsDisc.dx_site "10.0.0.11" [2; 1]) [0x029102; 0x029101] /\ @hosts pyset_nodup (PropsDisc.dx_site "10.0.0.11" [2; 1; 9]) [0x029102; 0x029101; 0x029109] /\
  servers_of (t_node (PropsDisc.dx_site "10.0.0.11" [2; 1])) = 4%nat /\ servers_of PropsDisc.dx_ctl = 4%nat /\ length (open_ifs PropsDisc.dx_ctl) = 2%nat /\
  shown (firstn 7 sx_events) = Some [(Some ("10.0.0.11"%string, 3610), [0x0EF001; 0x029102; 0x029101; 0x029109])] /\
  v_last (view (firstn 7 sx_events)) "10.0.0.11" = Some (("10.0.0.11"%string, 3610), [0x029102; 0x029101; 0x029109]) /\
  shown sx_events = Some [(Some ("10.0.0.11"%string, 3610), [0x0EF001; 0x029102; 0x029101])] /\
  v_last (view sx_events) "10.0.0.11" = Some (("10.0.0.11"%string, 3610), [0x029102; 0x029101]) /\ v_last (view sx_events) "10.0.0.12" = None.
Proof.
  intros start shown view. split; [apply (PropsDisc.dx_hosts "10.0.0.11" [2; 1]); [repeat constructor; lia|vm_compute; reflexivity]|].
  split; [apply (PropsDisc.dx_hosts "10.0.0.11" [2; 1; 9]); [repeat constructor; lia|vm_compute; reflexivity]|].
  do 7 (split; [vm_compute; reflexivity|]). vm_compute. reflexivity.
Qed.
