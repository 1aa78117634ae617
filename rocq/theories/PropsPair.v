(** Property C123: the two programs of the documentation together. *)
From Verif Require Import PyBase MsgM PropM ObjM DbData DbM NodeM LocalM CtrlM DocM OutM GuideM PairM
  SpecHex SpecWire SpecObj SpecDb SpecReq SpecNode SpecLocal SpecSrv SpecCtrl SpecEnd SpecSess SpecOut SpecMono SpecDoc SpecGuide SpecPair MapP NodeP EndP MeetP PairP.

(** C123: everything printed and stored. *)
Theorem C123_exact : forall (PS : PySet) wc wd jc jd ac an n x o d l,
  quiet wc -> reliable wc -> quiet wd -> reliable wd -> dest_addr (DNode n) = Some an -> joined jc jd an x ->
  zget 0x029101 (ln_objs (x_dev x)) = Some o -> a_light doc_handler o -> status o = Some d ->
  Forall (fun cw => 0 <= fst cw < 256 /\ Forall (fun b => 0 <= b < 256) (snd cw) /\ zlen (snd cw) <= 255) l ->
  exists x' outs alive d' es o', guide_posts wc wd jc jd ac an n (to_light l) x = (x', outs) /\
  pair_run (fun c => has_property c o) (true, d) l = ((alive, d'), es) /\ Forall2 shown es outs /\
  zget 0x029101 (ln_objs (x_dev x')) = Some o' /\ status o' = Some d' /\
  if alive then joined jc jd an x' else match server_at (x_dev x') jd with Some v => s_alive v = false | None => True end.
Proof. exact L_C123_exact. Qed.
Print Assumptions C123_exact.
(** C123: the device as switch. *)
Theorem C123_switch_partial : forall (PS : PySet) wc wd jc jd ac an n x o b l,
  quiet wc -> reliable wc -> quiet wd -> reliable wd -> dest_addr (DNode n) = Some an -> joined jc jd an x ->
  zget 0x029101 (ln_objs (x_dev x)) = Some o -> a_light doc_handler o -> status o = Some [b] ->
  Forall (fun cw => 0 <= fst cw < 256 /\ Forall (fun b => 0 <= b < 256) (snd cw) /\ zlen (snd cw) <= 255) l ->
  (forall w, In (0x80, w) l -> length w = 1%nat) ->
  exists x' outs o', guide_posts wc wd jc jd ac an n (to_light l) x = (x', outs) /\ joined jc jd an x' /\
  zget 0x029101 (ln_objs (x_dev x')) = Some o' /\ status o' = Some [switched b l] /\
  Forall2 (fun cw ls => if (fst cw =? 0x80) && on_offb (hd 0 (snd cw)) then ls = []
                        else answer_rows 0x50 [mkprop (fst cw) (if has_property (fst cw) o then snd cw else [])] ls) l outs.
Proof. exact L_C123_switch_partial. Qed.
Print Assumptions C123_switch_partial.
(** The device of the documentation with a status, and as constructed; the controller is the one of EndP. *)
Definition px_world (d : option (list Z)) : world :=
  let s := fst (@new_doc_node pyset_nodup (mkrnd [1; 2; 3] 4 5)) in
  let s1 := match d, zget 0x029101 (ln_objs s) with
            | Some b, Some o => put_obj 0x029101 (fst (set_property_data 0x80 b o)) s
            | _, _ => s
            end in
  mkworld finder [] (fst (fst (local_start good_os [] s1 []))) [].
Definition px_run (d : option (list Z)) (l : list (Z * list Z)) : list (list string) * option (list Z) :=
  let '(x, ls) := @guide_posts pyset_nodup good_os good_os 2 2 ctl_addr dev_addr (mknode (Some dev_addr) []) (to_light l) (px_world d) in
  (ls, match zget 0x029101 (ln_objs (x_dev x)) with Some o => status o | None => None end).
Example C123_premises : exists o, zget 0x029101 (ln_objs (x_dev (px_world (Some [0x30])))) = Some o /\ a_light doc_handler o /\ status o = Some [0x30].
Proof.
  destruct (zget 0x029101 (ln_objs (x_dev (px_world (Some [0x30]))))) as [o|] eqn:E; [|vm_compute in E; discriminate]. exists o. split; [reflexivity|].
  assert (B : match zget 0x029101 (ln_objs (x_dev (px_world (Some [0x30])))) with
              | Some o => o_handler o = doc_handler /\ forallb (fun kp => fst kp =? op_code (snd kp)) (o_props o) = true /\ status o = Some [0x30]
              | None => False end) by (vm_compute; repeat split; reflexivity).
  rewrite E in B. destruct B as (H & F & S). split; [|exact S]. split; [exact H|]. intros c p G. rewrite forallb_forall in F. unfold get_property in G.
  symmetry. apply Z.eqb_eq. exact (F (c, p) (MeetP.dget_in c _ p G)).
Qed.
Example C123_ex : joined 2 2 dev_addr (px_world (Some [0x30])) /\
  px_run (Some [0x30]) [(0x80, [0x31]); (0x80, [0x32]); (0x9F, [1; 2]); (0x05, [7]); (0x80, [0x30]); (0x80, [0x31])] =
  ([[]; ["50"%string; "80 32 "%string]; ["50"%string; "9F 0102 "%string]; ["50"%string; "05  "%string]; []; []], Some [0x31]) /\
  switched 0x30 [(0x80, [0x31]); (0x80, [0x32]); (0x9F, [1; 2]); (0x05, [7]); (0x80, [0x30]); (0x80, [0x31])] = 0x31.
Proof.
  split; [|split; vm_compute; reflexivity]. split; [split; [vm_compute; discriminate|eexists; split; [vm_compute; reflexivity|split; reflexivity]]|].
  split; [do 2 eexists; split; vm_compute; reflexivity|]. split; [vm_compute; split; discriminate|].
  split; [split; [vm_compute; discriminate|eexists; split; [vm_compute; reflexivity|split; reflexivity]]|]. reflexivity.
Qed.
(** C123 fails for the device as constructed, after a write without data and after a write of two bytes. *)
Theorem C123_new_refuted : forall (PS : PySet) wc wd jc jd ac an n x r l,
  quiet wc -> reliable wc -> quiet wd -> reliable wd -> dest_addr (DNode n) = Some an -> joined jc jd an x ->
  Forall (fun cw => 0 <= fst cw < 256 /\ Forall (fun b => 0 <= b < 256) (snd cw) /\ zlen (snd cw) <= 255) l ->
  exists s o, new_doc_node r = (s, Ok true) /\ zget 0x029101 (ln_objs s) = Some o /\
  (zget 0x029101 (ln_objs (x_dev x)) = Some o ->
   exists x' outs o', guide_posts wc wd jc jd ac an n (to_light l) x = (x', outs) /\ joined jc jd an x' /\
   zget 0x029101 (ln_objs (x_dev x')) = Some o' /\ status o' = Some [] /\
   Forall2 (fun cw ls => answer_rows 0x50 [mkprop (fst cw) (if has_property (fst cw) o then snd cw else [])] ls) l outs).
Proof. exact L_C123_new_refuted. Qed.
Print Assumptions C123_new_refuted.
Theorem C123_empty_refuted : forall (PS : PySet) wc wd jc jd ac an n x o b l,
  quiet wc -> reliable wc -> quiet wd -> reliable wd -> dest_addr (DNode n) = Some an -> joined jc jd an x ->
  zget 0x029101 (ln_objs (x_dev x)) = Some o -> a_light doc_handler o -> status o = Some [b] ->
  Forall (fun cw => 0 <= fst cw < 256 /\ Forall (fun b => 0 <= b < 256) (snd cw) /\ zlen (snd cw) <= 255) l ->
  exists x' outs o', guide_posts wc wd jc jd ac an n (to_light ((0x80, []) :: l)) x = (x', outs) /\ Forall (fun ls => ls = []) outs /\
  zget 0x029101 (ln_objs (x_dev x')) = Some o' /\ status o' = Some [b] /\
  match server_at (x_dev x') jd with Some v => s_alive v = false | None => True end.
Proof. exact L_C123_empty_refuted. Qed.
Print Assumptions C123_empty_refuted.
Theorem C123_long_refuted : forall (PS : PySet) wc wd jc jd ac an n x o b y l,
  quiet wc -> reliable wc -> quiet wd -> reliable wd -> dest_addr (DNode n) = Some an -> joined jc jd an x ->
  zget 0x029101 (ln_objs (x_dev x)) = Some o -> a_light doc_handler o -> status o = Some [b] -> 0 <= y < 256 ->
  Forall (fun cw => 0 <= fst cw < 256 /\ Forall (fun b => 0 <= b < 256) (snd cw) /\ zlen (snd cw) <= 255) l ->
  exists x' ls outs o', guide_posts wc wd jc jd ac an n (to_light ((0x80, [0x30; y]) :: l)) x = (x', ls :: outs) /\ ls = [] /\
  Forall2 (fun cw ls => answer_rows 0x50 [mkprop (fst cw) (if has_property (fst cw) o then snd cw else [])] ls) l outs /\
  zget 0x029101 (ln_objs (x_dev x')) = Some o' /\ status o' = Some [0x30; y].
Proof. exact L_C123_long_refuted. Qed.
Print Assumptions C123_long_refuted.
Example C123_findings_ex :
  px_run None [(0x80, [0x30]); (0x80, [0x31])] = ([["50"%string; "80 30 "%string]; ["50"%string; "80 31 "%string]], Some []) /\
  px_run (Some [0x30]) [(0x80, []); (0x80, [0x31]); (0x9F, [1])] = ([[]; []; []], Some [0x30]) /\
  px_run (Some [0x31]) [(0x80, [0x30; 7]); (0x80, [0x31]); (0x80, [])] = ([[]; ["50"%string; "80 31 "%string]; ["50"%string; "80  "%string]], Some [0x30; 7]).
Proof. vm_compute. repeat split; reflexivity. Qed.
