(** Property C68: reactions to datagrams are never answered; no message storms. *)
From Verif Require Import PyBase BytesM EsvM MsgM PropM ObjM DbData DbM NodeM LocalM CtrlM
  SpecWire SpecObj SpecReq SpecNode SpecProf SpecLocal SpecSrv SpecCtrl SpecEnd SpecNet MapP NodeP ProfP LocalP AnswerP CtrlP EndP NetP.
From Verif Require Import SpecReq.

Theorem C68_reactions_unanswered : forall (PS : PySet) w1 tr1 s1 j1 b1 a1 s1' tr1' w2 tr2 s2 j2 x a2 s2' tr2',
  bytes_ok b1 -> deliver w1 tr1 s1 j1 (b1, a1) = (s1', tr1') -> In x (sent (since tr1 tr1')) ->
  bytes_ok (send_bytes x) -> deliver w2 tr2 s2 j2 (send_bytes x, a2) = (s2', tr2') ->
  sent (since tr2 tr2') = [].
Proof. exact L_C68_reactions_unanswered. Qed.
Print Assumptions C68_reactions_unanswered.
Theorem C68_no_storm : forall (PS : PySet) w N F l N' F' n,
  (forall s tr, In (s, tr) N -> fan_out n s) -> hops w (N, F) l (N', F') ->
  exists G, F' = F ++ G /\ Forall (fun b => answer_code (esv_of b)) G /\
  (length G <= n * length (filter (fun i => match nth_error F i with Some b => is_request (esv_of b) | None => false end) l))%nat.
Proof. exact L_C68_no_storm. Qed.
Print Assumptions C68_no_storm.
(** A controller and a device; a request of the controller reaches the device twice, the first
    answer reaches the controller and the device itself. *)
Definition nx_lamp : obj := mkobj 0x029101 "" [(0x80, mkoprop 0x80 [0x30] 1 1 1)] HSuper 0 [] CObject.
Definition nx_dev : lnode := fst (fst (local_start good_os [] (mkln (mknode None [(0x029101, nx_lamp)]) InTable 1 new_manager None) [])).
Definition nx_read : list Z := [0x10; 0x81; 0; 9; 0x0E; 0xF0; 1; 2; 0x91; 1; 0x62; 1; 0x80; 0].
Definition nx_answer : list Z := [0x10; 0x81; 0; 9; 2; 0x91; 1; 0x0E; 0xF0; 1; 0x72; 1; 0x80; 1; 0x30].
Definition nx_net : list (lnode * trace) := [(finder, []); (nx_dev, [])].
Example C68_ex : (forall s tr, In (s, tr) nx_net -> fan_out 2 s) /\
  exists N, @hops pyset_nodup (fun _ => good_os) (nx_net, [nx_read]) [0; 1; 1; 0]%nat (N, [nx_read; nx_answer; nx_answer]).
Proof.
  split.
  - intros s tr [E|[E|[]]]; injection E as <- _; intros v I; vm_compute in I; intuition; subst v; vm_compute; lia.
  - assert (B : bytes_ok nx_read /\ bytes_ok nx_answer) by (split; repeat constructor; unfold byte_ok; lia). destruct B as (B1 & B2).
    eexists. eapply hops_cons. { eapply (hop_intro _ _ _ 1%nat 0%nat ctl_addr 0%nat); [reflexivity..|exact B1|vm_compute; reflexivity]. }
    eapply hops_cons. { eapply (hop_intro _ _ _ 0%nat 0%nat dev_addr 1%nat); [reflexivity..|exact B2|vm_compute; reflexivity]. }
    eapply hops_cons. { eapply (hop_intro _ _ _ 1%nat 0%nat dev_addr 1%nat); [reflexivity..|exact B2|vm_compute; reflexivity]. }
    eapply hops_cons. { eapply (hop_intro _ _ _ 1%nat 0%nat ctl_addr 0%nat); [reflexivity..|exact B1|vm_compute; reflexivity]. }
    apply hops_nil.
Qed.
