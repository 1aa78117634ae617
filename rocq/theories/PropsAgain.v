(** Property C95: a network that repeats datagrams. *)
From Verif Require Import PyBase MsgM PropM ObjM NodeM LocalM CtrlM SpecWire SpecReq SpecNode SpecLocal SpecSrv SpecCtrl SpecEnd SpecSess SpecMany SpecAgain MapP NodeP CtrlP AnswerP EndP SessP AgainP PropsMany.
From Verif Require Import SpecReq.
Local Open Scope nat_scope.

(** C95: the network behaves as the reference, in which a repeated request is treated again. *)
Theorem C95_as_store_partial : forall (PS : PySet) wd jd an St x l,
  quiet wd -> reliable wd -> all_ready jd an St x -> run_ok2 (ref_start St (length (w_clis x))) l ->
  exists x' o r', net_run2 wd jd an x l = (x', map (as_returned an (start_tids x)) o) /\
  ref_run2 (ref_start St (length (w_clis x))) l = (r', o) /\ mirrors (w_dev x') (v_store r').
Proof. exact L_C95_as_store_partial. Qed.
Print Assumptions C95_as_store_partial.
Theorem C95_order : forall St n l r o, ref_run2 (ref_start St n) l = (r, o) ->
  v_store r = store_run St (map snd (v_log r)) /\
  NoDup (map fst (v_posts r)) /\ incl (v_log r) (v_posts r) /\ NoDup (map fst o) /\
  forall t code a, In (t, Some (code, a)) o ->
    exists l1 k l2, v_log r = l1 ++ (t, (code, k)) :: l2 /\ store_reply (store_run St (map snd l1)) code k = Some a.
Proof. exact L_C95_order. Qed.
Print Assumptions C95_order.
(** C95: if no request that writes is repeated, the calls are explained by one order in which each is treated once. *)
Theorem C95_reads_partial : forall St n l r o, ref_run2 (ref_start St n) l = (r, o) -> writes_once (v_log r) ->
  exists lg, thinned lg (v_log r) /\ (forall t, In t (map fst (v_log r)) -> In t (map fst lg)) /\
    explains St lg o /\ same_store (store_run St (map snd lg)) (v_store r).
Proof. exact L_C95_reads_partial. Qed.
Print Assumptions C95_reads_partial.
(** C95: a repeated write changes nothing unless one of its properties was written in between. *)
Theorem C95_again : forall St l1 code k l2 l3,
  (forall code' k', In (code', k') l2 -> code' <> code \/ forall c, In c (codes_written k) -> ~ In c (codes_written k')) ->
  same_store (store_run St (l1 ++ (code, k) :: l2 ++ (code, k) :: l3)) (store_run St (l1 ++ (code, k) :: l2 ++ l3)).
Proof. exact L_C95_again. Qed.
Print Assumptions C95_again.
(** C95: otherwise it undoes what was written in between, although both writes were accepted. *)
Theorem C95_undone_refuted : forall (PS : PySet) wd jd an St x code c a b t l, quiet wd -> reliable wd -> all_ready jd an St x -> length (w_clis x) = 2 ->
  (0 <= code < 2 ^ 24)%Z -> byte_ok c -> byte_ok a -> byte_ok b -> St code = Some t -> t c = Some l -> cl_read l = true -> cl_write l = true ->
  map (fun r => (fst r, option_map (fun m => (m_ESV m, m_props m)) (snd r))) (snd (net_run2 wd jd an x
    [Once (EPost 0 code (KWrite [mkprop c [a]])); ECopyRequest 0; Once (EServe 0); Once (EAnswer 0); Once (EReturn 0);
     Once (EPost 1 code (KWrite [mkprop c [b]])); Once (EServe 1); Once (EAnswer 0); Once (EReturn 1);
     Once (EServe 0); Once (EPost 0 code (KRead [c])); Once (EServe 0); Once (EAnswer 1); Once (EReturn 0)])) =
  [(0, Some (0x71%Z, [mkprop c []])); (1, Some (0x71%Z, [mkprop c []])); (0, Some (0x72%Z, [mkprop c [a]]))].
Proof. exact L_C95_undone_refuted. Qed.
Print Assumptions C95_undone_refuted.
(** Requests and answers are repeated; the copy of the first answer arrives during the next call. *)
Definition zx_events : list event2 :=
  [Once (EPost 0 0x029101 (KWrite [mkprop 0x80 [0x31%Z]])); ECopyRequest 0; Once (EServe 0); ECopyAnswer 0; Once (EServe 0); Once (EAnswer 0); Once (EReturn 0);
   Once (EPost 0 0x029101 (KRead [0x80%Z])); ECopyRequest 0; Once (EAnswer 0); Once (EAnswer 0); Once (EServe 0);
   Once (EPost 1 0x029101 (KWrite [mkprop 0x80 [0x41%Z]])); Once (EServe 1); Once (EServe 0); Once (EAnswer 2); Once (EReturn 0); Once (EAnswer 1); Once (EReturn 1)].
Lemma zx_fit : forall k : call, (exists d, k = KWrite [mkprop 0x80 [d]] /\ (0 <= d < 256)%Z) \/ k = KRead [0x80%Z] -> post_ok 0x029101 k.
Proof.
  intros k H. destruct H as [(d & -> & D)| ->]; (split; [lia|]; split; [split; [unfold byte_ok; cbn; lia|split; [cbn; lia|repeat constructor; unfold byte_ok; cbn; lia]]|]; split; [repeat constructor; unfold byte_ok; cbn; lia|]; split; [constructor|]; vm_compute; lia).
Qed.
Lemma zx_call : forall St k, post_ok 0x029101 k -> match St 0x029101%Z with None => True | Some t =>
      match reply t k with Some (e, ps, ss, gs) => let a := mkmsg 0 0 0 e ps ss gs None None in (length (wire a) <= 1024)%nat /\ (e = 0x72%Z -> empty_list a = false) | None => True end /\
      match k with KWriteRead _ cs => forallb (known t) cs = true | _ => True end end -> call_ok St 0x029101 k.
Proof. intros St k (A & B & C & D & E) F. exact (conj A (conj B (conj C (conj D (conj E F))))). Qed.
Example C95_ex :
  all_ready 2 dev_addr yx_store yx_net /\ run_ok2 (ref_start yx_store 2) zx_events /\
  snd (@net_run2 pyset_nodup good_os 2 dev_addr yx_net zx_events) =
  [(0%nat, Some (mkmsg 1 0x029101 0x0EF001 0x71 [mkprop 0x80 []] [] [] (Some dev_addr) None));
   (0%nat, Some (mkmsg 2 0x029101 0x0EF001 0x72 [mkprop 0x80 [0x41%Z]] [] [] (Some dev_addr) None));
   (1%nat, Some (mkmsg 1 0x029101 0x0EF001 0x71 [mkprop 0x80 []] [] [] (Some dev_addr) None))] /\
  map fst (v_log (fst (ref_run2 (ref_start yx_store 2) zx_events))) = [mktag 0 1; mktag 0 1; mktag 0 2; mktag 1 1; mktag 0 2].
Proof.
  split; [exact (proj1 C82_ex)|]. split; [|split; vm_compute; reflexivity].
  unfold zx_events.
  repeat match goal with
  | |- run_ok2 _ [] => exact Logic.I
  | |- run_ok2 ?r (?e :: ?l) => change (event_ok2 r e /\ run_ok2 (fst (ref_step2 r e)) l); split; [|let r' := eval vm_compute in (fst (ref_step2 r e)) in change (run_ok2 r' l)]
  | |- event_ok2 _ (Once (EPost _ _ _)) => split; [apply zx_fit; first [left; eexists; split; [reflexivity|lia]|right; reflexivity]|vm_compute; reflexivity]
  | |- event_ok2 ?r (Once (EServe ?j)) => let q := eval vm_compute in (nth_error (v_reqs r) j) in change (match q with Some (_, (code, k)) => call_ok (v_store r) code k | None => True end);
      cbv iota beta; apply zx_call; [apply zx_fit; first [left; eexists; split; [reflexivity|lia]|right; reflexivity]|vm_compute; repeat split; try discriminate; lia]
  | |- event_ok2 _ _ => exact Logic.I
  end.
Qed.
