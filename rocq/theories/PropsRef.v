(** Property C94: objects that are shared, added again or given another code. *)
From Verif Require Import PyBase EsvM MsgM PropM ObjM DbM NodeM LocalM TidM SpecWire SpecObj SpecNode SpecProf RunM SpecRun RefM SpecRef MapP RefP.
Local Open Scope nat_scope.

(** C94: a node finds under a code the last object that was added to it with this code. *)
Theorem C94_found : forall (PS : PySet) profs devs ops n, new_profiles profs -> Forall (proper profs devs) ops -> n < length profs ->
  exists nd, nth_error (w_nodes (ref_run (fresh profs devs) ops)) n = Some nd /\ forall c, zget c (rn_tab nd) = found_after (profs ++ devs) n c ops.
Proof. exact L_C94_found. Qed.
Print Assumptions C94_found.
(** C94: a device is one object for all nodes; stores and requests of all of them reach it. *)
Theorem C94_object : forall (PS : PySet) profs devs ops i o, new_profiles profs -> Forall (proper profs devs) ops -> nth_error devs i = Some o ->
  nth_error (w_heap (ref_run (fresh profs devs) ops)) (length profs + i) = Some (obj_from (profs ++ devs) (length profs + i) [] ops o).
Proof. exact L_C94_object. Qed.
Print Assumptions C94_object.
Theorem C94_code : forall (PS : PySet) profs devs ops i, new_profiles profs -> Forall (proper profs devs) ops -> i < length profs + length devs ->
  exists o, nth_error (w_heap (ref_run (fresh profs devs) ops)) i = Some o /\ o_code o = code_after (profs ++ devs) i ops.
Proof. exact L_C94_code. Qed.
Print Assumptions C94_code.
Theorem C94_answer : forall (PS : PySet) profs devs ops n m, new_profiles profs -> Forall (proper profs devs) ops -> n < length profs ->
  let w := ref_run (fresh profs devs) ops in
  match found_after (profs ++ devs) n (m_DEOJ m) ops with
  | None => ref_step w (RAsk n m) = (w, RNone)
  | Some i => exists o, nth_error (w_heap w) i = Some o /\ snd (ref_step w (RAsk n m)) = RAnswer (snd (obj_message_received o m))
  end.
Proof. exact L_C94_answer. Qed.
Print Assumptions C94_answer.
Theorem C94_added : forall (PS : PySet) profs devs ops n i, new_profiles profs -> Forall (proper profs devs) ops -> n < length profs ->
  snd (ref_step (ref_run (fresh profs devs) ops) (RAdd n i)) = RBool (Ok true).
Proof. exact L_C94_added. Qed.
Print Assumptions C94_added.
(** C94: the node's own profile lists the codes which its objects had at its last addition. *)
Theorem C94_list : forall (PS : PySet) profs devs ops n, new_profiles profs -> Forall (proper profs devs) ops -> n < length profs ->
  exists p, nth_error (w_heap (ref_run (fresh profs devs) ops)) n = Some p /\
    forall code, In code five -> get_property_data code p = Some (says code (listed (profs ++ devs) n ops)).
Proof. exact L_C94_list. Qed.
Print Assumptions C94_list.
(** C94, for programs that change no code after an addition: the lists are the codes under which objects are found. *)
Theorem C94_settled_partial : forall (PS : PySet) profs devs ops n, new_profiles profs -> Forall (proper profs devs) ops -> settled ops -> n < length profs ->
  listed (profs ++ devs) n ops = keys_after (profs ++ devs) n ops /\ NoDup (keys_after (profs ++ devs) n ops) /\
  forall c, (exists i, found_after (profs ++ devs) n c ops = Some i) <-> In c (keys_after (profs ++ devs) n ops).
Proof. exact L_C94_settled_partial. Qed.
Print Assumptions C94_settled_partial.
Theorem C94_own_partial : forall (PS : PySet) profs devs ops n c i, new_profiles profs -> Forall (proper profs devs) ops -> settled ops -> n < length profs ->
  found_after (profs ++ devs) n c ops = Some i -> code_after (profs ++ devs) i ops = c.
Proof. exact L_C94_own_partial. Qed.
Print Assumptions C94_own_partial.
(** C94: after a change of the code of an added object the node lists a code under which it finds nothing. *)
Theorem C94_renamed_refuted : forall (PS : PySet) profs devs n i j oi oj c, new_profiles profs -> n < length profs ->
  length profs <= i < length profs + length devs -> length profs <= j < length profs + length devs -> i <> j ->
  nth_error (profs ++ devs) i = Some oi -> nth_error (profs ++ devs) j = Some oj -> NoDup [0x0EF001%Z; o_code oi; o_code oj; c] ->
  let w := ref_run (fresh profs devs) [RAdd n i; RCode i c; RAdd n j] in
  (exists p, nth_error (w_heap w) n = Some p /\ get_property_data 0xD6 p = Some (says 0xD6 [0x0EF001%Z; c; o_code oj])) /\
  (forall m, m_DEOJ m = c -> ref_step w (RAsk n m) = (w, RNone)) /\
  (forall m, m_DEOJ m = o_code oi -> exists o, nth_error (w_heap w) i = Some o /\ o_code o = c /\ snd (ref_step w (RAsk n m)) = RAnswer (snd (obj_message_received o m))).
Proof. exact L_C94_renamed_refuted. Qed.
Print Assumptions C94_renamed_refuted.
(** C94: an object that is added again with another code is counted and listed twice. *)
Theorem C94_twice_refuted : forall (PS : PySet) profs devs n i oi c, new_profiles profs -> n < length profs ->
  length profs <= i < length profs + length devs -> nth_error (profs ++ devs) i = Some oi -> NoDup [0x0EF001%Z; o_code oi; c] ->
  let w := ref_run (fresh profs devs) [RAdd n i; RCode i c; RAdd n i] in
  (exists p, nth_error (w_heap w) n = Some p /\ get_property_data 0xD3 p = Some (says 0xD3 [0x0EF001%Z; c; c]) /\ get_property_data 0xD6 p = Some (says 0xD6 [0x0EF001%Z; c; c])) /\
  (forall m, m_DEOJ m = c \/ m_DEOJ m = o_code oi -> exists o, nth_error (w_heap w) i = Some o /\ snd (ref_step w (RAsk n m)) = RAnswer (snd (obj_message_received o m))).
Proof. exact L_C94_twice_refuted. Qed.
Print Assumptions C94_twice_refuted.
Definition lx_rnd := mkrnd [1;2;3;4;5;6;7;8;9;10;11;12;13]%Z 14 15.
Definition lx_prof (controller : bool) : obj :=
  match zget 0x0EF001%Z (ln_objs (fst (@new_local pyset_nodup controller lx_rnd))) with Some p => p | None => new_object (PInt 0) end.
Definition lx_dev (c : Z) : obj := mkobj c "" [(0x80%Z, mkoprop 0x80 [0x30%Z] 1 1 1)] HSuper 0 [] CObject.
(** Objects 0 and 1 are the profiles of two nodes, objects 2 and 3 are devices. *)
Definition lx_w : world := fresh [lx_prof false; lx_prof true] [lx_dev 0x029101; lx_dev 0x013001].
Definition lx_msg (d e : Z) (ps : list prop) : msg := mkmsg 7 0x05FF01 d e ps [] [] None None.
Definition lx_answer (d e : Z) (ps : list prop) : rres := RAnswer (Ok (Some (mkmsg 7 d 0x05FF01 e ps [] [] None None))).
Definition lx_data (w : world) (n : nat) (c : Z) : option (list Z) := match nth_error (w_heap w) n with Some p => get_property_data c p | None => None end.
(** Both nodes have device 2; the first one gets it once more under another code. *)
Definition lx_ops : list rop :=
  [RAdd 0 2; RAdd 1 2; RAdd 0 3; RAsk 1 (lx_msg 0x029101 0x61 [mkprop 0x80 [0x31%Z]]); RCode 2 0x029102%Z; RAdd 0 2].
Lemma lx_new : @new_profiles pyset_nodup [lx_prof false; lx_prof true].
Proof.
  intros p [<-|[<-|[]]]; [exists false|exists true]; exists lx_rnd; eexists; (split; [rewrite (surjective_pairing (new_local _ _)); f_equal; vm_compute; reflexivity|]); vm_compute; reflexivity.
Qed.
Example C94_ex :
  @new_profiles pyset_nodup [lx_prof false; lx_prof true] /\
  Forall (proper [lx_prof false; lx_prof true] [lx_dev 0x029101; lx_dev 0x013001]) lx_ops /\
  settled (firstn 4 lx_ops) /\
  let w := @ref_run pyset_nodup lx_w (firstn 4 lx_ops) in let w' := @ref_run pyset_nodup lx_w lx_ops in
  map rn_tab (w_nodes w) = [[(0x0EF001%Z, 0); (0x029101%Z, 2); (0x013001%Z, 3)]; [(0x0EF001%Z, 1); (0x029101%Z, 2)]] /\
  (* a write by the second node is read by the first *)
  snd (@ref_step pyset_nodup w (RAsk 0 (lx_msg 0x029101 0x62 [mkprop 0x80 []]))) = lx_answer 0x029101 0x72 [mkprop 0x80 [0x31%Z]] /\
  lx_data w 0 0xD6 = Some [2; 2; 0x91; 1; 1; 0x30; 1]%Z /\ lx_data w 1 0xD6 = Some [1; 2; 0x91; 1]%Z /\
  (* the same device under two codes *)
  map rn_tab (w_nodes w') = [[(0x0EF001%Z, 0); (0x029101%Z, 2); (0x013001%Z, 3); (0x029102%Z, 2)]; [(0x0EF001%Z, 1); (0x029101%Z, 2)]] /\
  lx_data w' 0 0xD6 = Some [3; 2; 0x91; 2; 1; 0x30; 1; 2; 0x91; 2]%Z /\ lx_data w' 0 0xD3 = Some [0; 0; 3]%Z /\
  (* the other node lists the old code and finds the device there, but not under its new code *)
  lx_data w' 1 0xD6 = Some [1; 2; 0x91; 1]%Z /\
  snd (@ref_step pyset_nodup w' (RAsk 1 (lx_msg 0x029102 0x62 [mkprop 0x80 []]))) = RNone.
Proof.
  split; [exact lx_new|]. split; [|split].
  - repeat (apply Forall_cons; [cbn; lia|]). apply Forall_nil.
  - intros k i c E. assert (L : k < 4) by (apply (proj1 (nth_error_Some (firstn 4 lx_ops) k)); congruence). do 4 (destruct k as [|k]; [discriminate E|]). lia.
  - vm_compute. repeat split.
Qed.
