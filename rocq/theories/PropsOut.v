(** Property C112: what the tools print. *)
From Verif Require Import PyBase MsgM PropM ObjM NodeM LocalM CtrlM BenchM LogM OutM
  SpecHex SpecWire SpecDb SpecReq SpecNode SpecLocal SpecSrv SpecCtrl SpecEnd SpecSess SpecBench SpecLog SpecOut MapP NodeP EndP OutP.
From Verif Require PropsBench PropsCtrl.

(** C112: the line of uechopost, and what can be read from it. *)
Theorem C112_post : forall a m, received_from a m -> exists t, post_lines (Some m) = Some [t] /\ answer_line t (fst a) (m_SEOJ m) (m_ESV m) (m_props m).
Proof. exact L_C112_post. Qed.
Print Assumptions C112_post.
Theorem C112_post_none : post_lines None = Some [].
Proof. exact L_C112_post_none. Qed.
Print Assumptions C112_post_none.
Theorem C112_post_readable : forall t ip seoj esv ps ip' seoj' esv' ps', answer_line t ip seoj esv ps -> answer_line t ip' seoj' esv' ps' ->
  plain_name ip -> plain_name ip' -> ip = ip' /\ seoj = seoj' /\ esv = esv' /\ ps = ps'.
Proof. exact L_C112_post_readable. Qed.
Print Assumptions C112_post_readable.
Theorem C112_both_refuted : forall a m, received_from a m -> m_ESV m = 0x7E \/ m_ESV m = 0x5E -> exists t, post_lines (Some m) = Some [t] /\ answer_line t (fst a) (m_SEOJ m) (m_ESV m) [] /\
  forall sets gets, post_lines (Some (mkmsg (m_TID m) (m_SEOJ m) (m_DEOJ m) (m_ESV m) (m_props m) sets gets (m_from m) (m_to m))) = Some [t].
Proof. exact L_C112_both_refuted. Qed.
Print Assumptions C112_both_refuted.
Definition ox_answer : msg := mkmsg 7 0x029101 0x05FF01 0x72 [mkprop 0x80 [0x30]; mkprop 0x9F []; mkprop 0xB0 [7; 0xAB]] [] [] (Some ("10.0.0.8"%string, 3610)) None.
Definition ox_both : msg := mkmsg 7 0x029101 0x05FF01 0x7E [] [mkprop 0x80 []] [mkprop 0xB0 [7; 0xAB]] (Some ("10.0.0.8"%string, 3610)) None.
Example C112_post_ex : post_lines (Some ox_answer) = Some ["10.0.0.8 029101 72 80 30 9F  B0 07AB "%string] /\ post_lines (Some ox_both) = Some ["10.0.0.8 029101 7E "%string].
Proof. split; vm_compute; reflexivity. Qed.
Example C112_answer_ex : answer_line "10.0.0.8 029101 72 80 30 " "10.0.0.8" 0x029101 0x72 [mkprop 0x80 [0x30]] /\ received_from ("10.0.0.8"%string, 3610) ox_answer.
Proof.
  split.
  - exists "029101"%string, "72"%string, "80 30 "%string. assert (D : forall c d, String.get (Z.to_nat d) "0123456789ABCDEF" = Some c -> 0 <= d -> upper_digit c d) by (intros; split; assumption).
    split; [split; [|split; [cbn; lia|now left]]; exists 0; split; [apply D; [reflexivity|lia]|]; exists 2; split; [apply D; [reflexivity|lia]|]; exists 9; split; [apply D; [reflexivity|lia]|]; exists 1; split; [apply D; [reflexivity|lia]|]; exists 0; split; [apply D; [reflexivity|lia]|]; exists 1; split; [apply D; [reflexivity|lia]|reflexivity]|].
    split; [split; [|split; [cbn; lia|now left]]; exists 7; split; [apply D; [reflexivity|lia]|]; exists 2; split; [apply D; [reflexivity|lia]|reflexivity]|]. split; [|reflexivity].
    apply (pc_cons _ _ [] "80 30 " ""); [|constructor]. exists "80"%string, "30"%string. split; [split; [|split; [cbn; lia|now left]]; exists 8; split; [apply D; [reflexivity|lia]|]; exists 0; split; [apply D; [reflexivity|lia]|reflexivity]|].
    split; [|reflexivity]. exists "3"%char, "0"%char, ""%string. split; [reflexivity|]. split; [apply D; [reflexivity|cbn; lia]|]. split; [apply D; [reflexivity|cbn; lia]|reflexivity].
  - exists (set_from None ox_answer). split; [|reflexivity]. split; [split; [unfold byte_ok; cbn; lia|split; [cbn; lia|repeat constructor; unfold byte_ok; cbn; lia]]|]. split; [|reflexivity].
    split; [repeat constructor; unfold byte_ok; cbn; lia|split; constructor].
Qed.
(** C112: a line for each node, and what can be read from it. *)
Theorem C112_list : forall n, Forall (fun o => 0 <= o_code o) (node_objects n) -> object_line (list_line n) (node_ip n) (map o_code (node_objects n)).
Proof. exact L_C112_list. Qed.
Print Assumptions C112_list.
Theorem C112_list_readable : forall t ip codes ip' codes', object_line t ip codes -> object_line t ip' codes' -> plain_name ip -> plain_name ip' -> ip = ip' /\ codes = codes'.
Proof. exact L_C112_list_readable. Qed.
Print Assumptions C112_list_readable.
Theorem C112_found : forall (PS : PySet) w tr s c ms s' tr' rs, quiet w -> ln_ctl s = Some c -> c_found c = [] ->
  Forall (fun m => exists a, received_from a m) ms -> received_all w tr s ms = (s', tr', rs) ->
  exists c', ln_ctl s' = Some c' /\
  Forall2 (fun ip t => exists codes, last_list ip ms = Some codes /\ object_line t ip (firsts Z.eqb (0x0EF001 :: codes))) (firsts String.eqb (announcers ms)) (search_lines c') /\
  forall n, bench_lines (Z.of_nat n) c' = concat (repeat (search_lines c') n).
Proof. exact L_C112_found. Qed.
Print Assumptions C112_found.
Example C112_list_ex : option_map search_lines (ln_ctl (fst (fst (PropsCtrl.ex_after PropsCtrl.ex_hist)))) =
  Some ["10.0.0.9        [0] 0EF001 [1] 029102 [2] 05FF01 "%string; "10.0.0.8        [0] 0EF001 [1] 013001 "%string].
Proof. vm_compute. reflexivity. Qed.
(** C112: the lines with -v. *)
Theorem C112_block : forall name shown i n first, Forall (fun o => 0 <= o_code o) (node_objects n) ->
  (forall code k, In (code, k) (mandatory (node_objects n)) -> 0 <= k /\ Forall bytes_ok (shown code k)) ->
  node_block i n first name shown (node_lines name i n first (map (fun '(code, k) => shown code k) (mandatory (node_objects n)))).
Proof. exact L_C112_block. Qed.
Print Assumptions C112_block.
Theorem C112_shown_partial : forall (PS : PySet) wc wd jc jd ac an n S z x name i,
  quiet wc -> reliable wc -> quiet wd -> reliable wd -> dest_addr (DNode n) = Some an ->
  joined jc jd an x -> mirrors (x_dev x) S -> store_ok S ->
  Forall (fun o => 0 <= o_code o) (node_objects n) ->
  (forall code k, In (code, k) (mandatory (node_objects n)) -> call_ok S code (KRead [k])) ->
  exists x' ds, tool_node wc wd jc jd ac an n z x = (x', Ok ds) /\ node_block i n "" name (on_screen S) (bench_node name i n ds) /\ forall man, node_block i n (manufacturer_part man) name (on_screen S) (search_node name i n man ds).
Proof. exact L_C112_shown_partial. Qed.
Print Assumptions C112_shown_partial.
Theorem C112_manufacturer : manufacturer_part None = ""%string /\ forall m,
  match m_props m with
  | [] => manufacturer_part (Some m) = ""%string
  | p :: _ => bytes_ok (p_data p) -> exists h, hex_bytes (p_data p) h /\ manufacturer_part (Some m) = ("(" ++ match manufacturer_of (be_val (p_data p)) with Some e => snd e | None => h end ++ ")")%string
  end.
Proof. exact L_C112_manufacturer. Qed.
Print Assumptions C112_manufacturer.
Definition ox_name (o : obj) (p : oprop) : string := if op_code p =? 0x80 then "Operation status" else "".
Example C112_shown_ex : bench_node ox_name 1 PropsBench.bx_node [[[0x30]]; [[]]; [[7; 0xAB]]; []] =
  [""; "10.0.0.9        "; "[0] 029101 "; "[0] [0] 80 (Operation status) 30 "; "[0] [1] 81  "; "[0] [3] B0 07AB "; "[1] 029102 "; "[1] [0] 80 (Operation status) "]%string.
Proof. vm_compute. reflexivity. Qed.
Example C112_manufacturer_ex :
  manufacturer_part (Some (mkmsg 7 0x0EF001 0x0EF001 0x72 [mkprop 0x8A [0; 0; 0x2F]] [] [] None None)) = "(AIPHONE CO., LTD.)"%string /\
  manufacturer_part (Some (mkmsg 7 0x0EF001 0x0EF001 0x72 [mkprop 0x8A [0xFF; 0xFF; 0xF1]] [] [] None None)) = "(FFFFF1)"%string.
Proof. split; vm_compute; reflexivity. Qed.
