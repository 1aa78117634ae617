(** Property C122: the controller of the documentation. *)
From Verif Require Import PyBase MsgM PropM ObjM NodeM LocalM CtrlM BenchM LogM OutM GuideM
  SpecHex SpecWire SpecObj SpecDb SpecReq SpecNode SpecLocal SpecSrv SpecCtrl SpecEnd SpecSess SpecBench SpecLog SpecOut SpecGuide MapP NodeP EndP GuideP.
From Verif Require PropsSess PropsCtrl.

(** C122: the list of nodes and objects, and what can be read from it. *)
Theorem C122_list : forall c, Forall (fun n => Forall (fun o => 0 <= o_code o) (node_objects n)) (ctl_nodes c) ->
  listing (map (fun n => (node_ip n, map o_code (node_objects n))) (ctl_nodes c)) (guide_list c).
Proof. exact L_C122_list. Qed.
Print Assumptions C122_list.
Theorem C122_found : forall (PS : PySet) w tr s c ms s' tr' rs, quiet w -> ln_ctl s = Some c -> c_found c = [] ->
  Forall (fun m => exists a, received_from a m) ms -> received_all w tr s ms = (s', tr', rs) ->
  exists c' ns, ln_ctl s' = Some c' /\ map fst ns = firsts String.eqb (announcers ms) /\
  Forall (fun n => exists l, last_list (fst n) ms = Some l /\ snd n = firsts Z.eqb (0x0EF001 :: l)) ns /\ listing ns (guide_list c').
Proof. exact L_C122_found. Qed.
Print Assumptions C122_found.
Theorem C122_list_readable : forall ns ns' ls, listing ns ls -> listing ns' ls ->
  Forall (fun n => plain_name (fst n)) ns -> Forall (fun n => plain_name (fst n)) ns' -> ns = ns'.
Proof. exact L_C122_list_readable. Qed.
Print Assumptions C122_list_readable.
Example C122_list_ex : option_map guide_list (ln_ctl (fst (fst (PropsCtrl.ex_after PropsCtrl.ex_hist)))) =
  Some ["[0] 10.0.0.9"%string; "[0] 0EF001 "%string; "[1] 029102 "%string; "[2] 05FF01 "%string;
        "[1] 10.0.0.8"%string; "[0] 0EF001 "%string; "[1] 013001 "%string].
Proof. vm_compute. reflexivity. Qed.
(** C122: what is printed about an answer, and what can be read from it. *)
Theorem C122_print : guide_print None = [] /\ forall a m, received_from a m -> answer_rows (m_ESV m) (m_props m) (guide_print (Some m)).
Proof. exact L_C122_print. Qed.
Print Assumptions C122_print.
Theorem C122_print_readable : forall e ps e' ps' ls, answer_rows e ps ls -> answer_rows e' ps' ls -> e = e' /\ ps = ps'.
Proof. exact L_C122_print_readable. Qed.
Print Assumptions C122_print_readable.
Example C122_print_ex : guide_print (Some (mkmsg 7 0x029101 0x05FF01 0x72 [mkprop 0x80 [0x30]; mkprop 0x9F []; mkprop 0xB0 [7; 0xAB]] [] [] (Some ("10.0.0.8"%string, 3610)) None)) =
  ["72"%string; "80 30 "%string; "9F  "%string; "B0 07AB "%string].
Proof. vm_compute. reflexivity. Qed.
(** C122: the write request of the documentation, sent or posted to the first node. *)
Theorem C122_post : forall (PS : PySet) wc wd jc jd ac an x T code c d,
  quiet wc -> reliable wc -> quiet wd -> reliable wd -> joined jc jd an x -> first_found (x_ctl x) an ->
  mirrors (x_dev x) T -> store_ok T -> small_write code c d ->
  exists x' ls, guide_post wc wd jc jd ac an (guide_request code c d) x = (x', Ok ls) /\ printed T code c d ls /\
  joined jc jd an x' /\ mirrors (x_dev x') (stored T code c d).
Proof. exact L_C122_post. Qed.
Print Assumptions C122_post.
Theorem C122_send : forall (PS : PySet) wc wd jc jd ac an x T code c d,
  quiet wc -> reliable wc -> quiet wd -> reliable wd -> joined jc jd an x -> first_found (x_ctl x) an ->
  mirrors (x_dev x) T -> store_ok T -> small_write code c d ->
  exists x', guide_send wc wd jd ac an (guide_request code c d) x = (x', Ok true) /\ mirrors (x_dev x') (stored T code c d).
Proof. exact L_C122_send. Qed.
Print Assumptions C122_send.
Theorem C122_none : forall (PS : PySet) wc wd jc jd ac an m x c, ln_ctl (x_ctl x) = Some c -> c_found c = [] ->
  guide_list c = [] /\ guide_post wc wd jc jd ac an m x = (x, Err IndexError) /\ guide_send wc wd jd ac an m x = (x, Err IndexError).
Proof. exact L_C122_none. Qed.
Print Assumptions C122_none.
Example C122_post_ex : first_found (x_ctl PropsSess.sx_world) dev_addr /\
  (let run code c d := let '(x, r) := @guide_post pyset_nodup good_os good_os 2 2 ctl_addr dev_addr (guide_request code c d) PropsSess.sx_world in
     (r, option_map op_data (match zget code (ln_objs (x_dev x)) with Some o => get_property c o | None => None end)) in
   run 0x029101 0x80 [0x31] = (Ok [], Some [0x31]) /\
   run 0x029101 0x88 [0xAB; 1] = (Ok ["50"%string; "88 AB01 "%string], Some [0x42]) /\
   run 0x029101 0xE5 [1] = (Ok ["50"%string; "E5  "%string], None) /\
   run 0x013001 0x80 [0x31] = (Ok [], None)) /\
  (let '(x, r) := @guide_send pyset_nodup good_os good_os 2 ctl_addr dev_addr (guide_request 0x029101 0x80 [0x31]) PropsSess.sx_world in
   r = Ok true /\ option_map op_data (match zget 0x029101 (ln_objs (x_dev x)) with Some o => get_property 0x80 o | None => None end) = Some [0x31]) /\
  small_write 0x029101 0x88 [0xAB; 1].
Proof.
  split; [do 3 eexists; split; [vm_compute; reflexivity|split; [vm_compute; reflexivity|reflexivity]]|]. split; [vm_compute; repeat split; reflexivity|]. split; [vm_compute; split; reflexivity|].
  unfold small_write. repeat split; try lia; [repeat constructor; lia|cbn; lia].
Qed.
