(** Property C121: requests through objects and properties. *)
From Verif Require Import PyBase BytesM EsvM MsgM PropM ObjM NodeM LocalM CtrlM AddrM DestM LinkM SpecCtrl SpecLink LinkP.
Local Open Scope nat_scope.

(** C121: a request through an object goes to the node it was last added to, from the controller that found that node. *)
Theorem C121_goes : forall k ops o n c a esv l, proper ops -> o < snd (fst (made ops)) -> node_of o ops = Some n -> found_at ops n c a ->
  exists code, obj_code o ops = Some code /\ use_obj (g_run (g_empty k) ops) o esv (pairs l) = USent c (asks code esv l) a.
Proof. exact L_C121_goes. Qed.
Print Assumptions C121_goes.
(** C121: the same through a property. *)
Theorem C121_property : forall k ops p o n c a esv d, proper ops -> p < fst (fst (made ops)) -> object_of p ops = Some o -> node_of o ops = Some n -> found_at ops n c a ->
  exists code pc, obj_code o ops = Some code /\ prop_code p ops = Some pc /\ use_prop (g_run (g_empty k) ops) p esv d = USent c (asks code esv [mkprop pc d]) a.
Proof. exact L_C121_property. Qed.
Print Assumptions C121_property.
(** C121: that request is the one of C65. *)
Theorem C121_same : forall w bs tr s ctl n o esv l h p, ln_ctl s = Some ctl -> n_addr n = Some (h, p) ->
  let '(s', tr', r) := object_send w tr s n o esv (pairs l) in
  exists m1 to, d_send w bs tr s (asks (o_code o) esv l) (TNode [VStr h; VInt p]) = (s', tr', m1, to, lift r).
Proof. exact L_C121_same. Qed.
Print Assumptions C121_same.
(** C121: after an announcement was received all objects and properties of the node can be used. *)
Theorem C121_found : forall std c h p codes cbs g g' r, c < length (gr_found g) -> heard std c (h, p) codes cbs g = (g', r, true) ->
  forall code, code = 0x0EF001%Z \/ In code codes -> exists o x, found_obj g' c h code = Some o /\ nth_error (gr_objs g') o = Some x /\
    (forall esv l, use_obj g' o esv (pairs l) = USent c (asks code esv l) [VStr h; VInt p]) /\
    (forall pc, In pc (std code) -> exists q, zget pc (go_props x) = Some q /\ forall esv d, use_prop g' q esv d = USent c (asks code esv [mkprop pc d]) [VStr h; VInt p]).
Proof. exact L_C121_found. Qed.
Print Assumptions C121_found.
(** C121: the tables of the controllers hold what was last found. *)
Theorem C121_table : forall k ops c h, proper ops -> c < k ->
  exists t, nth_error (gr_found (g_run (g_empty k) ops)) c = Some t /\ sget h t = registered c h ops.
Proof. exact L_C121_table. Qed.
Print Assumptions C121_table.
Theorem C121_found_run : forall std k ops c h p codes cbs g' r, proper ops -> c < k -> heard std c (h, p) codes cbs (g_run (g_empty k) ops) = (g', r, true) ->
  forall code, code = 0x0EF001%Z \/ In code codes -> exists o, found_obj g' c h code = Some o /\
    (forall esv l, use_obj g' o esv (pairs l) = USent c (asks code esv l) [VStr h; VInt p]).
Proof. exact L_C121_found_run. Qed.
Print Assumptions C121_found_run.
(** C121: listeners that do nothing do no harm. *)
Theorem C121_quiet : forall std c a codes cbs g, concat cbs = [] -> exists g', heard std c a codes cbs g = (g', [], true).
Proof. exact L_C121_quiet. Qed.
Print Assumptions C121_quiet.
(** C121: malformed requests are refused wherever the object is. *)
Theorem C121_malformed : forall k ops o esv props, proper ops -> o < snd (fst (made ops)) -> malformed props -> use_obj (g_run (g_empty k) ops) o esv props = UFalse.
Proof. exact L_C121_malformed. Qed.
Print Assumptions C121_malformed.
(** C121: a listener that is told of the node cannot use it yet, and the node is not recorded. *)
Theorem C121_early_refuted : forall std c a codes cbs g code esv l, In (UThrough code esv (pairs l)) (concat cbs) ->
  exists g' r, heard std c a codes cbs g = (g', r, false) /\ gr_found g' = gr_found g.
Proof. exact L_C121_early_refuted. Qed.
Print Assumptions C121_early_refuted.
(** C121: so that with such a listener no node is ever found. *)
Theorem C121_never_refuted : forall std cbs code esv l, In (UThrough code esv (pairs l)) (concat cbs) ->
  forall (anns : list (nat * addr * list Z)) g, gr_found (fold_left (fun g x => fst (fst (heard std (fst (fst x)) (snd (fst x)) (snd x) cbs g))) anns g) = gr_found g.
Proof. exact L_C121_never_refuted. Qed.
Print Assumptions C121_never_refuted.
(** C121: an object that belongs to no found node raises. *)
Theorem C121_detached_refuted : forall k ops, proper ops ->
  (forall o esv l, o < snd (fst (made ops)) -> (node_of o ops = None \/ exists n, node_of o ops = Some n /\ not_found ops n) -> use_obj (g_run (g_empty k) ops) o esv (pairs l) = URaise) /\
  (forall p esv d, p < fst (fst (made ops)) -> object_of p ops = None -> use_prop (g_run (g_empty k) ops) p esv d = URaise).
Proof. exact L_C121_detached_refuted. Qed.
Print Assumptions C121_detached_refuted.
(** C121: a request through an object in the table of one node can go to another node. *)
Theorem C121_moved_refuted : forall k ops o n1 n2 esv l, proper (ops ++ [GAddObj n2 o]) -> node_of o ops = Some n1 -> n1 <> n2 ->
  let g := g_run (g_empty k) ops in let g' := g_run (g_empty k) (ops ++ [GAddObj n2 o]) in
  nth_error (gr_nodes g') n1 = nth_error (gr_nodes g) n1 /\ gr_found g' = gr_found g /\
  (not_found ops n2 -> use_obj g' o esv (pairs l) = URaise) /\
  (forall c a, found_at ops n2 c a -> exists code, use_obj g' o esv (pairs l) = USent c (asks code esv l) a).
Proof. exact L_C121_moved_refuted. Qed.
Print Assumptions C121_moved_refuted.

(** A light is found at 10.0.0.5; later the program adds its object to a node that it made itself. *)
Definition kx_ops : list gop :=
  [GNode true (VTuple [VStr "10.0.0.5"; VInt 3610]); GObj 0x029101; GProp 0x80; GAddProp 0 0; GAddObj 0 0; GRegister 0 0; GNode true (VTuple [VStr "10.0.0.9"; VInt 3610])].
Example C121_ex : proper kx_ops /\ proper (kx_ops ++ [GAddObj 1 0]) /\ node_of 0 kx_ops = Some 0 /\ found_at kx_ops 0 0 [VStr "10.0.0.5"; VInt 3610] /\ not_found kx_ops 1 /\
  use_obj (g_run (g_empty 1) kx_ops) 0 0x62 (pairs [mkprop 0x80 []]) = USent 0 (asks 0x029101 0x62 [mkprop 0x80 []]) [VStr "10.0.0.5"; VInt 3610] /\
  use_prop (g_run (g_empty 1) kx_ops) 0 0x61 [0x30%Z] = USent 0 (asks 0x029101 0x61 [mkprop 0x80 [0x30%Z]]) [VStr "10.0.0.5"; VInt 3610] /\
  use_obj (g_run (g_empty 1) (kx_ops ++ [GAddObj 1 0])) 0 0x62 (pairs [mkprop 0x80 []]) = URaise /\
  use_obj (g_run (g_empty 1) (kx_ops ++ [GAddObj 1 0; GRegister 0 1])) 0 0x62 (pairs [mkprop 0x80 []]) = USent 0 (asks 0x029101 0x62 [mkprop 0x80 []]) [VStr "10.0.0.9"; VInt 3610].
Proof.
  assert (P : proper (kx_ops ++ [GAddObj 1 0])).
  { intros b op a E. do 8 (destruct b as [|? b]; [cbn in E; injection E as <- _; cbn; lia|cbn in E; injection E as <- E]). destruct b; discriminate. }
  split; [apply proper_snoc in P; apply P|]. split; [exact P|]. split; [reflexivity|]. split; [repeat split|]. split; [right; reflexivity|]. repeat split.
Qed.
Example C121_table_ex : registered 0 "10.0.0.5" kx_ops = Some 0 /\ registered 0 "10.0.0.9" kx_ops = None /\ registered 1 "10.0.0.5" kx_ops = None /\
  registered 1 "10.0.0.9" (kx_ops ++ [GRegister 1 1; GSetAddr 1 (VTuple [VStr "10.0.0.7"; VInt 3610])]) = Some 1 /\
  gr_found (g_run (g_empty 2) (kx_ops ++ [GRegister 1 1; GSetAddr 1 (VTuple [VStr "10.0.0.7"; VInt 3610])])) = [[("10.0.0.5"%string, 0)]; [("10.0.0.9"%string, 1)]].
Proof. repeat split. Qed.
(** An announcement, with a listener that does nothing and with one that reads the new node. *)
Definition kx_std (c : Z) : list Z := if Z.eqb c 0x029101 then [0x80; 0xB0]%Z else [0x80; 0xD6]%Z.
Example C121_heard_ex :
  (let '(g, _, ok) := heard kx_std 0 ("10.0.0.5"%string, 3610%Z) [0x029101%Z] [[]] (g_empty 1) in
   ok = true /\ found_obj g 0 "10.0.0.5" 0x029101 = Some 1 /\ use_obj g 1 0x62 (pairs [mkprop 0xB0 []]) = USent 0 (asks 0x029101 0x62 [mkprop 0xB0 []]) [VStr "10.0.0.5"; VInt 3610]) /\
  (let '(g, _, ok) := heard kx_std 0 ("10.0.0.5"%string, 3610%Z) [0x029101%Z] [[]; [UThrough 0x029101 0x62 (pairs [mkprop 0x80 []])]] (g_empty 1) in
   ok = false /\ found_obj g 0 "10.0.0.5" 0x029101 = None).
Proof. vm_compute. repeat split. Qed.
