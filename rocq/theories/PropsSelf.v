(** Property C75: what a node says about itself over its life. *)
From Verif Require Import PyBase BytesM EsvM MsgM PropM ObjM DbData DbM NodeM LocalM CtrlM
  SpecWire SpecObj SpecReq SpecNode SpecProf SpecLocal SpecSrv SpecCtrl SpecEnd SpecLife SpecSelf MapP NodeP ProfP LocalP AnswerP CtrlP EndP SelfP.
From Verif Require Import SpecReq.

Theorem C75_self : forall (PS : PySet) c r s0 w l s tr, new_local c r = (s0, Ok tt) -> turns w (s0, []) l (s, tr) ->
  let devices := device_codes (firsts Z.eqb l) in
  (* the objects *)
  node_codes s = firsts Z.eqb (0x0EF001 :: l) /\
  (* operating status, version and identification *)
  profile_data 0x80 s = Some [0x30] /\
  profile_data 0x82 s = Some [1; 0x0D; 1; 0] /\
  profile_data 0x83 s = Some ([0xFE; 0; 0; 0] ++ rnd_id r) /\
  (* the number of devices, and the devices *)
  profile_data 0xD3 s = Some (be 3 (zlen devices)) /\
  (zlen devices <= 255 -> profile_data 0xD5 s = Some (zlen devices :: flat_map (be 3) devices) /\
                          profile_data 0xD6 s = Some (zlen devices :: flat_map (be 3) devices)) /\
  (* the classes of the devices *)
  exists n, profile_data 0xD7 s = Some (n :: class_bytes (classes devices)).
Proof. exact L_C75_self. Qed.
Print Assumptions C75_self.
(** A node to which lights are added before and after the start, while others try to write its profile. *)
Definition zx_lamp (i : Z) : obj := mkobj (0x029100 + i) "" [(0x80, mkoprop 0x80 [0x30] 1 1 1)] HSuper 0 [] CObject.
(** Writes of the identification number and of the instance list. *)
Definition zx_write : list Z := [0x10; 0x81; 0; 9; 5; 0xFF; 1; 0x0E; 0xF0; 1; 0x61; 2; 0x83; 1; 7; 0xD6; 1; 0].
Definition zx_acts : list act :=
  [AAdd (Some (zx_lamp 2)); AStart []; ARecv 0 (zx_write, ctl_addr); AAdd (Some (zx_lamp 1)); ASend search_message (Some ctl_addr);
   AAdd (Some (zx_lamp 2)); AAdd None; AOption 1 false; ARecv 1 (zx_write, ctl_addr); AStop].
Definition zx_random : np_random := mkrnd [1; 2; 3; 4; 5; 6; 7; 8; 9; 10; 11; 12; 13] 20 21.
Lemma zx_turns {PS : PySet} w l : Forall gentle l -> forall x k y, turns w x k y ->
  turns w x (k ++ flat_map (fun a => match a with AAdd (Some o) => [o_code o] | _ => [] end) l) (acts_run w l y).
Proof.
  induction 1 as [|a l Ga F IH]; intros x k y T; cbn [flat_map acts_run fold_left]; [rewrite app_nil_r; exact T|].
  rewrite app_assoc. apply IH. now apply turn_act.
Qed.
Example C75_ex : exists s0 s tr, @new_local pyset_nodup false zx_random = (s0, Ok tt) /\
  @turns pyset_nodup good_os (s0, []) [0x029102; 0x029101; 0x029102] (s, tr) /\ length (sent tr) = 3%nat /\
  node_codes s = [0x0EF001; 0x029102; 0x029101] /\
  profile_data 0x83 s = Some [0xFE; 0; 0; 0; 1; 2; 3; 4; 5; 6; 7; 8; 9; 10; 11; 12; 13] /\
  profile_data 0xD3 s = Some [0; 0; 2] /\
  profile_data 0xD6 s = Some [2; 2; 0x91; 2; 2; 0x91; 1] /\
  profile_data 0xD7 s = Some [3; 2; 0x91].
Proof.
  destruct (@new_local pyset_nodup false zx_random) as [s0 r] eqn:E0.
  assert (X : fst (@acts_run pyset_nodup good_os zx_acts (fst (@new_local pyset_nodup false zx_random), [])) =
              fst (@acts_run pyset_nodup good_os zx_acts (s0, []))) by now rewrite E0.
  exists s0. destruct (@acts_run pyset_nodup good_os zx_acts (s0, [])) as [s tr] eqn:E. exists s, tr.
  assert (R : r = Ok tt) by (change r with (snd (s0, r)); rewrite <- E0; vm_compute; reflexivity). subst r. split; [reflexivity|].
  split.
  - rewrite <- E. apply (zx_turns good_os zx_acts) with (k := []); [|apply turn_none].
    unfold zx_acts. repeat constructor; cbn; try lia; unfold byte_ok; lia.
  - assert (S0 : s0 = fst (@new_local pyset_nodup false zx_random)) by now rewrite E0.
    rewrite S0 in E. assert (S : s = fst (@acts_run pyset_nodup good_os zx_acts (fst (@new_local pyset_nodup false zx_random), []))) by now rewrite E.
    assert (T : tr = snd (@acts_run pyset_nodup good_os zx_acts (fst (@new_local pyset_nodup false zx_random), []))) by now rewrite E.
    rewrite S, T. clear. vm_compute. repeat split.
Qed.
(** [gentle] does not allow the profile to be replaced, [user_changes] does not allow objects to be removed. *)
Example C75_spec_ex : ~ gentle (AAdd (Some (new_object (PInt 0x0EF001)))) /\ gentle (ARecv 0 (zx_write, ctl_addr)) /\
  user_changes [(0x029101, zx_lamp 1)] [(0x029101, mkobj 0x029101 "lamp" [] HNone 0 [] CObject)] /\
  ~ user_changes [(0x029101, zx_lamp 1)] [].
Proof.
  split; [intros H; apply H; reflexivity|]. split; [cbn; repeat constructor; unfold byte_ok; lia|]. split.
  - split; [reflexivity|]. split; [reflexivity|]. intros k o [H|[]]. injection H as <- <-. reflexivity.
  - intros (H & _). discriminate.
Qed.
