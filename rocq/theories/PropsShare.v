(** Properties C76-C78: data shared by several threads or changed by callbacks. *)
From Verif Require Import PyBase EsvM MsgM PropM ObjM NodeM LocalM CtrlM TidM SpecWire SpecReq
  FoundM SpecFound FoundP ListenM SpecListen ListenP ServeM SpecServe ServeP.
Require Import Permutation.

(** ** C76 *)
Theorem C76_get_partial : forall rsv s sched i a r, NoDup (dkeys (f_tab s)) -> nth_error (f_pcs s) i = Some (PGet a) ->
  nth_error (f_pcs (fst (frun rsv s sched))) i = Some (PDone r) ->
  exists b e, during rsv s sched i b e /\
  ((r = RChanged /\ ~ same_ips rsv s sched b e) \/
   (exists n ip, r = RGot (Ok (Some n)) /\ denotes rsv a ip /\ stored rsv s sched b e ip n) \/
   (r = RGot (Ok None) /\ same_ips rsv s sched b e /\ forall ip, In ip (dkeys (tab_at rsv s sched b)) -> refused rsv a ip) \/
   (exists x t e', a = GAStr x /\ rsv t x = Err e' /\ r = RGot (Err e'))).
Proof. exact L_C76_get_partial. Qed.
Print Assumptions C76_get_partial.
Definition hx_node (ip : string) (c : Z) : node := mknode (Some (ip, 3610)) [(c, new_object (PInt c))].
Definition hx_2 : node := hx_node "10.0.0.2" 0x029101.
Definition hx_2' : node := hx_node "10.0.0.2" 0x029102.
Definition hx_3 : node := hx_node "10.0.0.3" 0x013001.
Definition hx_tab : list (string * node) := [("10.0.0.2"%string, hx_2); ("10.0.0.3"%string, hx_3)].
Definition hx_rsv (t : nat) (s : string) : res string := if String.eqb s "lamp" then Ok "10.0.0.3"%string else Err OSError.
(** Two lookups and a listing while a node announces itself again. *)
Definition hx_s : fst_ := mkfst hx_tab [PGet (GATup "10.0.0.2"); PGet (GAStr "lamp"); PNodes; PAdd hx_2'; PGet (GAStr "?")] 0.
Definition hx_sched : list nat := [2; 2; 0; 3; 3; 3; 1; 0; 1; 2; 1; 2; 4; 4]%nat.
Example C76_get_ex :
  f_pcs (fst (frun hx_rsv hx_s hx_sched)) =
    [PDone (RGot (Ok (Some hx_2'))); PDone (RGot (Ok (Some hx_3))); PDone (RNodes [hx_2; hx_3]); PDone RAdded; PDone (RGot (Err OSError))] /\
  during hx_rsv hx_s hx_sched 0 2 8 /\ same_ips hx_rsv hx_s hx_sched 2 8 /\ stored hx_rsv hx_s hx_sched 2 8 "10.0.0.2" hx_2' /\
  denotes hx_rsv (GAStr "lamp") "10.0.0.3" /\ refused hx_rsv (GAStr "lamp") "10.0.0.2".
Proof.
  split; [reflexivity|]. split; [|split; [|split; [|split]]].
  - repeat split; try (cbn; lia); try reflexivity.
    + intros k L r. do 9 (destruct k as [|k]; [try lia; cbn; discriminate|]). lia.
    + eexists. reflexivity.
  - intros k L. do 9 (destruct k as [|k]; [try lia; reflexivity|]). lia.
  - exists 6%nat. split; [lia|reflexivity].
  - right. exists 0%nat. reflexivity.
  - split; [discriminate|]. exists 0%nat, "10.0.0.3"%string. split; [reflexivity|discriminate].
Qed.

Theorem C76_nodes_partial : forall rsv s sched i r, NoDup (dkeys (f_tab s)) -> nth_error (f_pcs s) i = Some PNodes ->
  nth_error (f_pcs (fst (frun rsv s sched))) i = Some (PDone r) ->
  exists b e, during rsv s sched i b e /\
  ((r = RChanged /\ ~ same_ips rsv s sched b e) \/
   (exists l, r = RNodes l /\ same_ips rsv s sched b e /\ Forall2 (stored rsv s sched b e) (dkeys (tab_at rsv s sched b)) l)).
Proof. exact L_C76_nodes_partial. Qed.
Print Assumptions C76_nodes_partial.
Theorem C76_table : forall rsv s sched, fresh s ->
  let x := frun rsv s sched in
  (* nothing gets lost *)
  (forall ip, In ip (dkeys (f_tab s)) -> In ip (dkeys (f_tab (fst x)))) /\
  (forall i n r, nth_error (f_pcs s) i = Some (PAdd n) -> nth_error (f_pcs (fst x)) i = Some (PDone r) ->
     r = RAdded /\ In (node_ip n) (dkeys (f_tab (fst x))) /\ exists k, told i (snd x) = [(n, k)]) /\
  (* nothing else gets in, and no address twice *)
  (forall ip n, sget ip (f_tab (fst x)) = Some n ->
     sget ip (f_tab s) = Some n \/ exists i, nth_error (f_pcs s) i = Some (PAdd n) /\ node_ip n = ip) /\
  NoDup (dkeys (f_tab (fst x))).
Proof. exact L_C76_table. Qed.
Print Assumptions C76_table.
Example C76_table_ex : fresh hx_s /\ dkeys (f_tab (fst (frun hx_rsv hx_s hx_sched))) = ["10.0.0.2"; "10.0.0.3"]%string /\
  told 3 (snd (frun hx_rsv hx_s hx_sched)) = [(hx_2', true)].
Proof.
  split; [|split; reflexivity]. split; [|repeat constructor]. repeat constructor; cbn; intros H; repeat destruct H as [H|H]; try discriminate; auto.
Qed.

Theorem C76_known : forall rsv s sched i n t, nth_error (f_pcs s) i = Some (PAdd n) ->
  (* the first step of thread [i] *)
  nth_error sched t = Some i -> ~ In i (firstn t sched) ->
  forall m k, In (m, k) (told i (snd (frun rsv s sched))) ->
  m = n /\ (k = true <-> In (node_ip n) (dkeys (tab_at rsv s sched t))).
Proof. exact L_C76_known. Qed.
Print Assumptions C76_known.
Example C76_known_ex : nth_error (f_pcs hx_s) 3 = Some (PAdd hx_2') /\ exists t, nth_error hx_sched t = Some 3%nat /\ ~ In 3%nat (firstn t hx_sched) /\
  told 3 (snd (frun hx_rsv hx_s hx_sched)) = [(hx_2', true)].
Proof. split; [reflexivity|]. exists 3%nat. split; [reflexivity|]. split; [cbn; intros [H|[H|[H|[]]]]; discriminate|reflexivity]. Qed.

(** A known node cannot be looked up while a new one is being stored. *)
Theorem C76_changed_refuted : forall rsv t n ip, NoDup (dkeys t) -> In ip (dkeys t) -> ~ In (node_ip n) (dkeys t) ->
  let s := mkfst t [PGet (GATup ip); PNodes; PAdd n] 0 in
  let x := fst (frun rsv s [0; 1; 2; 2; 2; 0; 1]%nat) in
  nth_error (f_pcs x) 0 = Some (PDone RChanged) /\ nth_error (f_pcs x) 1 = Some (PDone RChanged) /\
  forall k, In ip (dkeys (tab_at rsv s [0; 1; 2; 2; 2; 0; 1]%nat k)).
Proof. exact L_C76_changed_refuted. Qed.
Print Assumptions C76_changed_refuted.
Example C76_changed_ex : f_pcs (fst (frun hx_rsv (mkfst [("10.0.0.2"%string, hx_2)] [PGet (GATup "10.0.0.2"); PNodes; PAdd hx_3] 0) [0; 1; 2; 2; 2; 0; 1]%nat)) =
  [PDone RChanged; PDone RChanged; PDone RAdded].
Proof. reflexivity. Qed.

Theorem C76_sequential : forall w tr c a pcs i, nth_error pcs i = Some (PGet a) ->
  exists m, nth_error (f_pcs (fst (frun (fun _ => os_resolve w tr) (mkfst (c_found c) pcs 0) (repeat i m)))) i =
            Some (PDone (RGot (get_node w tr c a))).
Proof. exact L_C76_sequential. Qed.
Print Assumptions C76_sequential.

(** ** C77 *)
Theorem C77_added_partial : forall fuel cb ls ls' calls r, calm cb -> never_removes cb -> tell_all fuel cb ls = (ls', calls, Some r) ->
  r = Ok tt /\ calls = ls' /\ exists more, ls' = ls ++ more.
Proof. exact L_C77_added_partial. Qed.
Print Assumptions C77_added_partial.
(** The listener 1 adds 7 when it is called first, the listener 7 adds 8. *)
Definition hx_add : callback := fun h l => (if Nat.eqb l 1 then [LAdd 7] else if Nat.eqb l 7 then [LAddOnce 8; LAddOnce 7] else [], Ok tt)%nat.
Example C77_added_ex : tell_all 9 hx_add [1; 2]%nat = ([1; 2; 7; 8]%nat, [1; 2; 7; 8]%nat, Some (Ok tt)) /\ calm hx_add /\ never_removes hx_add.
Proof.
  split; [reflexivity|]. split; [intros h l; reflexivity|]. intros h l. unfold hx_add. cbn [fst].
  destruct (Nat.eqb l 1); [repeat constructor|]. destruct (Nat.eqb l 7); repeat constructor.
Qed.
Theorem C77_unchanged : forall cb ls fuel, calm cb -> no_change cb -> (length ls < fuel)%nat -> tell_all fuel cb ls = (ls, ls, Some (Ok tt)).
Proof. exact L_C77_unchanged. Qed.
Print Assumptions C77_unchanged.
Theorem C77_removed_partial : forall fuel cb ls ls' calls r, never_adds cb -> tell_all fuel cb ls = (ls', calls, r) -> sublist calls ls.
Proof. exact L_C77_removed_partial. Qed.
Print Assumptions C77_removed_partial.
Example C77_removed_ex :
  tell_all 9 (fun h l => if Nat.eqb l 1 then ([LRemove 3], Ok tt) else ([], Ok tt))%nat [1; 2; 3; 4]%nat = ([1; 2; 4]%nat, [1; 2; 4]%nat, Some (Ok tt)) /\
  sublist [1; 2; 4]%nat [1; 2; 3; 4]%nat /\ ~ sublist [2; 1]%nat [1; 2]%nat.
Proof.
  split; [reflexivity|]. split; [repeat constructor|]. intros H. inversion H as [|? ? ? H2|? ? ? H2]; subst. inversion H2 as [|? ? ? H3|? ? ? H3]; subst; inversion H3.
Qed.
Theorem C77_skipped_refuted : forall a b rest, NoDup (a :: b :: rest) -> exists cb, calm cb /\ never_adds cb /\
  tell_all (S (S (length rest))) cb (a :: b :: rest) = (b :: rest, a :: rest, Some (Ok tt)) /\ ~ In b (a :: rest).
Proof. exact L_C77_skipped_refuted. Qed.
Print Assumptions C77_skipped_refuted.
Example C77_skipped_ex :
  tell_all 9 (fun h l => if Nat.eqb l 1 then ([LRemove 1], Ok tt) else ([], Ok tt))%nat [1; 2; 3]%nat = ([2; 3]%nat, [1; 3]%nat, Some (Ok tt)).
Proof. reflexivity. Qed.
Theorem C77_endless_refuted : forall ls, ls <> [] -> exists cb, calm cb /\ never_removes cb /\ forall fuel, snd (tell_all fuel cb ls) = None.
Proof. exact L_C77_endless_refuted. Qed.
Print Assumptions C77_endless_refuted.
(** C77: exactly what the loop does: the calls, the list after them, and the exception. *)
Theorem C77_exact : forall fuel cb ls ls' calls r, tell_all fuel cb ls = (ls', calls, r) ->
  match r with
  | None => went cb ls calls ls' /\ length calls = fuel
  | Some (Ok _) => went cb ls calls ls' /\ nth_error ls' (length calls) = None
  | Some (Err e) => exists c l ls1, calls = c ++ [l] /\ went cb ls c ls1 /\ nth_error ls1 (length c) = Some l /\
      ((changed (fst (cb c l)) ls1 ls' false /\ e = ValueError) \/ (changed (fst (cb c l)) ls1 ls' true /\ snd (cb c l) = Err e))
  end.
Proof. exact L_C77_exact. Qed.
Print Assumptions C77_exact.
Theorem C77_exact_ex : tell_all 9 (fun _ l => if Nat.eqb l 2 then ([LAdd 5; LRemove 8; LAdd 6], Ok tt) else ([], Ok tt)) [1; 2; 3]%nat =
  ([1; 2; 3; 5]%nat, [1; 2]%nat, Some (Err ValueError)).
Proof. exact L_C77_exact_ex. Qed.
Print Assumptions C77_exact_ex.

(** ** C78 *)
Theorem C78_sequential : forall s i req, nth_error (v_pcs s) i = Some (SBegin req) -> exists m,
  v_obj (vrun s (repeat i m)) = fst (fst (obj_message_received (v_obj s) req)) /\
  nth_error (v_pcs (vrun s (repeat i m))) i = Some (SDone (snd (obj_message_received (v_obj s) req))).
Proof. exact L_C78_sequential. Qed.
Print Assumptions C78_sequential.
Theorem C78_object : forall o reqs sched, builtin (o_handler o) -> wf_obj o ->
  written o (writes_made reqs sched) (v_obj (vrun (serving o reqs) sched)).
Proof. exact L_C78_object. Qed.
Print Assumptions C78_object.
(** A light, two controllers that write, one that writes and reads and one that reads. *)
Definition hx_light : obj := mkobj 0x029101 "" [(0x80, mkoprop 0x80 [0x30] 1 1 1); (0xB0, mkoprop 0xB0 [1] 1 1 0); (0x8A, mkoprop 0x8A [9] 1 0 0)] HSuper 0 [] CObject.
Lemma hx_light_wf : wf_obj hx_light.
Proof.
  intros c p. unfold get_property. cbn [hx_light o_props dget]. destruct (Z.eqb_spec c 0x80) as [->|]; [intros [= <-]; reflexivity|].
  destruct (Z.eqb_spec c 0xB0) as [->|]; [intros [= <-]; reflexivity|]. destruct (Z.eqb_spec c 0x8A) as [->|]; [intros [= <-]; reflexivity|discriminate].
Qed.
Definition hx_req (t e : Z) (ps ss gs : list prop) : msg := mkmsg t 0x05FF01 0x029101 e ps ss gs None None.
Definition hx_reqs : list msg :=
  [hx_req 1 0x61 [mkprop 0x80 [0x31]; mkprop 0xB0 [2]] [] [];
   hx_req 2 0x6E [] [mkprop 0xB0 [3]; mkprop 0x8A [0]] [mkprop 0x80 []; mkprop 0xB0 []];
   hx_req 3 0x62 [mkprop 0x80 []; mkprop 0xB0 []; mkprop 0x8A []] [] []].
Definition hx_turns : list nat := [2; 0; 2; 1; 0; 1; 2; 1; 1; 1; 0; 1; 2; 1; 0; 2]%nat.
Example C78_object_ex :
  writes_made hx_reqs hx_turns = [mkprop 0x80 [0x31]; mkprop 0xB0 [3]; mkprop 0x8A [0]; mkprop 0xB0 [2]] /\
  map (fun c => option_map op_data (get_property c (v_obj (vrun (serving hx_light hx_reqs) hx_turns)))) [0x80; 0xB0; 0x8A] = [Some [0x31]; Some [2]; Some [9]] /\
  (* the reader has seen the old 0x80 and the 0xB0 of the second request, which is gone at the end *)
  nth_error (v_pcs (vrun (serving hx_light hx_reqs) hx_turns)) 2 =
    Some (SDone (Ok (Some (mkmsg 3 0x029101 0x05FF01 0x72 [mkprop 0x80 [0x30]; mkprop 0xB0 [3]; mkprop 0x8A [9]] [] [] None None)))) /\
  nth_error (v_pcs (vrun (serving hx_light hx_reqs) hx_turns)) 1 =
    Some (SDone (Ok (Some (mkmsg 2 0x029101 0x05FF01 0x5E [] [mkprop 0xB0 []; mkprop 0x8A [0]] [mkprop 0x80 [0x31]; mkprop 0xB0 [2]] None None)))).
Proof. repeat split. Qed.
Theorem C78_answer : forall o reqs sched i req r, builtin (o_handler o) -> wf_obj o -> nth_error reqs i = Some req ->
  let s := serving o reqs in
  nth_error (v_pcs (vrun s sched)) i = Some (SDone r) ->
  match snd (obj_message_received o req) with
  | Ok (Some a) => exists a' b, r = Ok (Some a') /\ rest_part req a' = rest_part req a /\
      (length (asked_writes req) < steps_of i (firstn b sched))%nat /\
      seen s sched i b (asked_reads req) (read_part req a')
  | x => r = x
  end.
Proof. exact L_C78_answer. Qed.
Print Assumptions C78_answer.
Lemma hx_next s sched i b k mp l d rs : (b <= k)%nat -> nth_error sched k = Some i -> fst (read_answer (obj_at s sched k) mp) = d ->
  seen s sched i (S k) l rs -> seen s sched i b (mp :: l) (mkprop (p_code mp) d :: rs).
Proof. intros L E <- H. now apply seen_next. Qed.
Lemma hx_head s sched i b mp l rp rs : seen s sched i b (mp :: l) (rp :: rs) ->
  exists k, nth_error sched k = Some i /\ fst (read_answer (obj_at s sched k) mp) = p_data rp.
Proof. intros H. remember (mp :: l) as x eqn:X. remember (rp :: rs) as y eqn:Y. destruct H as [|b k mq l' rs' L E H]; [discriminate|]. exists k. split; [exact E|]. assert (mq = mp) by congruence. assert (Q : rp = mkprop (p_code mq) (fst (read_answer (obj_at s sched k) mq))) by congruence. rewrite Q. subst. reflexivity. Qed.
Example C78_answer_ex :
  seen (serving hx_light hx_reqs) hx_turns 2 2 [mkprop 0x80 []; mkprop 0xB0 []] [mkprop 0x80 [0x30]; mkprop 0xB0 [3]] /\
  ~ seen (serving hx_light hx_reqs) hx_turns 2 2 [mkprop 0x80 []] [mkprop 0x80 [0x33]].
Proof.
  split.
  - apply (hx_next _ _ _ 2 2 (mkprop 0x80 [])); [lia|reflexivity|vm_compute; reflexivity|]. apply (hx_next _ _ _ 3 6 (mkprop 0xB0 [])); [lia|reflexivity|vm_compute; reflexivity|constructor].
  - intros H. apply hx_head in H. destruct H as (k & E & H). cbn [p_data] in H.
    assert (X : (k < 16)%nat) by (change 16%nat with (length hx_turns); apply nth_error_Some; congruence). clear E.
    do 16 (destruct k as [|k]; [vm_compute in H; discriminate H|]). lia.
Qed.
Theorem C78_ends : forall o reqs sched i req, nth_error reqs i = Some req ->
  (3 + length (m_props req) + length (m_sets req) + length (m_gets req) <= steps_of i sched)%nat ->
  exists r, nth_error (v_pcs (vrun (serving o reqs) sched)) i = Some (SDone r).
Proof. exact L_C78_ends. Qed.
Print Assumptions C78_ends.
Theorem C78_single_partial : forall o reqs sched, builtin (o_handler o) -> wf_obj o -> Forall small reqs ->
  let s := serving o reqs in
  (forall i, (i < length reqs)%nat -> exists r, nth_error (v_pcs (vrun s sched)) i = Some (SDone r)) ->
  exists order, Permutation order (seq 0 (length reqs)) /\ as_if o reqs order (vrun s sched) /\
    forall a b, earlier s sched a b -> before a b order.
Proof. exact L_C78_single_partial. Qed.
Print Assumptions C78_single_partial.
(** Three requests of one property at the same time. *)
Definition hx_small : list msg := [hx_req 1 0x61 [mkprop 0x80 [0x31]] [] []; hx_req 2 0x62 [mkprop 0x80 []] [] []; hx_req 3 0x60 [mkprop 0x80 [0x32]] [] []].
Definition hx_mixed : list nat := [0; 1; 2; 0; 1; 2; 2; 1; 0]%nat.
Example C78_single_ex : Forall small hx_small /\
  (forall i, (i < 3)%nat -> exists r, nth_error (v_pcs (vrun (serving hx_light hx_small) hx_mixed)) i = Some (SDone r)) /\
  as_if hx_light hx_small [0; 1; 2]%nat (vrun (serving hx_light hx_small) hx_mixed) /\
  ~ as_if hx_light hx_small [2; 1; 0]%nat (vrun (serving hx_light hx_small) hx_mixed) /\
  earlier (serving hx_light hx_small) [0; 0; 0; 1]%nat 0 1.
Proof.
  split; [repeat constructor; discriminate|]. split; [|split; [|split]].
  - intros [|[|[|i]]] L; [| | |lia]; eexists; reflexivity.
  - split; reflexivity.
  - intros (H & _). discriminate.
  - exists 3%nat. eexists _, _. split; reflexivity.
Qed.
(** Larger requests are not indivisible: half old, half new. *)
Theorem C78_torn_refuted : forall o c1 c2 p1 p2 d1 d2, o_handler o = HSuper -> wf_obj o -> c1 <> c2 ->
  get_property c1 o = Some p1 -> get_property c2 o = Some p2 ->
  can_read p1 = true -> can_write p1 = true -> can_read p2 = true -> can_write p2 = true ->
  d1 <> op_data p1 -> d2 <> op_data p2 ->
  exists w r sched, let reqs := [w; r] in let s := vrun (serving o reqs) sched in
    asked_writes w = [mkprop c1 d1; mkprop c2 d2] /\ map p_code (asked_reads r) = [c1; c2] /\
    (exists a b, v_pcs s = [SDone (Ok (Some a)); SDone (Ok (Some b))] /\
       m_props b = [mkprop c1 (op_data p1); mkprop c2 d2]) /\
    forall order, Permutation order [0; 1]%nat -> ~ as_if o reqs order s.
Proof. exact L_C78_torn_refuted. Qed.
Print Assumptions C78_torn_refuted.
Theorem C78_mixed_refuted : forall o c1 c2 p1 p2 d1 d2 e1 e2, o_handler o = HSuper -> wf_obj o -> c1 <> c2 ->
  get_property c1 o = Some p1 -> get_property c2 o = Some p2 -> can_write p1 = true -> can_write p2 = true ->
  d1 <> e1 -> d2 <> e2 ->
  exists v w sched, let reqs := [v; w] in let s := vrun (serving o reqs) sched in
    asked_writes v = [mkprop c1 d1; mkprop c2 d2] /\ asked_writes w = [mkprop c1 e1; mkprop c2 e2] /\
    (forall i, (i < 2)%nat -> exists r, nth_error (v_pcs s) i = Some (SDone r)) /\
    option_map op_data (get_property c1 (v_obj s)) = Some e1 /\ option_map op_data (get_property c2 (v_obj s)) = Some d2 /\
    forall order, Permutation order [0; 1]%nat -> v_obj s <> obj_run o (pick reqs order).
Proof. exact L_C78_mixed_refuted. Qed.
Print Assumptions C78_mixed_refuted.
Example C78_torn_ex : v_pcs (vrun (serving hx_light [hx_req 1 0x61 [mkprop 0x80 [0x31]; mkprop 0xB0 [2]] [] []; hx_req 2 0x62 [mkprop 0x80 []; mkprop 0xB0 []] [] []]) [1; 1; 0; 0; 0; 0; 1; 1]%nat) =
  [SDone (Ok (Some (mkmsg 1 0x029101 0x05FF01 0x71 [mkprop 0x80 []; mkprop 0xB0 []] [] [] None None)));
   SDone (Ok (Some (mkmsg 2 0x029101 0x05FF01 0x72 [mkprop 0x80 [0x30]; mkprop 0xB0 [2]] [] [] None None)))].
Proof. reflexivity. Qed.
