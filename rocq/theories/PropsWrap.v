(** Property C82: more calls than TIDs. *)
From Verif Require Import PyBase MsgM PropM ObjM NodeM LocalM CtrlM
  SpecWire SpecObj SpecReq SpecNode SpecLocal SpecSrv SpecCtrl SpecEnd SpecSess SpecMany MapP NodeP CtrlP AnswerP EndP SessP ManyP WrapP PropsMany.
From Verif Require Import SpecReq.

Theorem C82_wraparound_refuted : forall (PS : PySet) wd jd an St x i c code k a code' k' n,
  quiet wd -> reliable wd -> all_ready jd an St x -> nth_error (w_clis x) i = Some c ->
  post_ok code k -> call_ok St code k -> store_reply St code k = Some a -> post_ok code' k' -> Z.of_nat n = 65534 ->
  let before := [EPost i code k; EServe 0; EReturn i] ++ concat (repeat [EPost i code k; ELoseRequest 0; EReturn i] n) in
  let last := [EPost i code' k'; EAnswer 0; EReturn i] in
  run_ok (ref_start St (length (w_clis x))) before /\
  (exists x', net_run wd jd an x (before ++ last) = (x', repeat (i, None) (S n) ++ [as_returned an (start_tids x) (mktag i 1, Some (code, a))]) /\
              length (w_reqs x') = 1%nat) /\
  snd (ref_run (ref_start St (length (w_clis x))) (before ++ last)) = map (fun j => (mktag i j, None)) (seq 1 (S (S n))).
Proof. exact L_C82_wraparound_refuted. Qed.
Print Assumptions C82_wraparound_refuted.
(** The controller writes and is told what a read 65535 calls before was answered. *)
Example C82_wraparound_ex : exists n x', Z.of_nat n = 65534 /\
  @net_run pyset_nodup good_os 2 dev_addr yx_net
    ([EPost 0 0x029101 (KRead [0x80]); EServe 0; EReturn 0] ++ concat (repeat [EPost 0 0x029101 (KRead [0x80]); ELoseRequest 0; EReturn 0] n) ++
     [EPost 0 0x029101 (KWrite [mkprop 0x80 [0x31]]); EAnswer 0; EReturn 0]) =
  (x', repeat (0%nat, None) (S n) ++ [(0%nat, Some (mkmsg 1 0x029101 0x0EF001 0x72 [mkprop 0x80 [0x30]] [] [] (Some dev_addr) None))]).
Proof.
  destruct (Z_of_nat_complete 65534 ltac:(lia)) as (n & N). exists n.
  assert (Pr : post_ok 0x029101 (KRead [0x80])).
  { split; [lia|]. split; [split; [unfold byte_ok; cbn; lia|split; [cbn; lia|repeat constructor; unfold byte_ok; cbn; lia]]|]. split; [repeat constructor; unfold byte_ok; cbn; lia|]. split; [constructor|cbn; lia]. }
  assert (Pw : post_ok 0x029101 (KWrite [mkprop 0x80 [0x31]])).
  { split; [lia|]. split; [split; [unfold byte_ok; cbn; lia|split; [cbn; lia|repeat constructor; unfold byte_ok; cbn; lia]]|]. split; [repeat constructor; unfold byte_ok; cbn; lia|]. split; [constructor|cbn; lia]. }
  assert (Cr : call_ok yx_store 0x029101 (KRead [0x80])).
  { destruct Pr as (A & B & C & D & E). split; [exact A|]. split; [exact B|]. split; [exact C|]. split; [exact D|]. split; [exact E|]. vm_compute. repeat split; try discriminate; lia. }
  destruct (C82_wraparound_refuted pyset_nodup good_os 2 dev_addr yx_store yx_net 0 (yx_cli ctl_addr) 0x029101 (KRead [0x80]) (0x72, [mkprop 0x80 [0x30]], [], [])
    0x029101 (KWrite [mkprop 0x80 [0x31]]) n good_quiet good_reliable (proj1 C82_ex) eq_refl Pr Cr eq_refl Pw (eq_sym N)) as (_ & (x' & E & _) & _).
  exists x'. split; [exact (eq_sym N)|]. rewrite app_assoc. exact E.
Qed.
