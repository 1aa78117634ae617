(** Property C108: copies of attached properties and objects. *)
From Verif Require Import PyBase CopyM SpecCopy CopyP.
Local Open Scope nat_scope.

Theorem C108_proper : forall prog, proper (fst (crun [] prog)).
Proof. exact L_C108_proper. Qed.
Print Assumptions C108_proper.
Theorem C108_copy : forall g x, intact g -> x < length g -> ~ locked g x ->
  exists g' f, deep_copy g x = (g', Some (f x)) /\ untouched g g' /\ copy_of g g' x f.
Proof. exact L_C108_copy. Qed.
Print Assumptions C108_copy.
Theorem C108_refused : forall g x, intact g -> x < length g -> locked g x -> deep_copy g x = (g, None).
Proof. exact L_C108_refused. Qed.
Print Assumptions C108_refused.
Theorem C108_apart : forall g g' x f, intact g -> copy_of g g' x f ->
  forall z, reaches g' (f x) z <-> exists k, reaches g x k /\ z = f k.
Proof. exact L_C108_apart. Qed.
Print Assumptions C108_apart.
Theorem C108_object : forall g o, proper g -> i_kind (inst_at g o) = KObj -> (forall d p, has g o (SPr d) p -> ~ locked g p) ->
  exists g' c q, copy_obj o g = (g', Some c) /\ untouched g g' /\ proper g' /\ object_of g g' o c (hd 0%Z (i_val (inst_at g o))) [] q.
Proof. exact L_C108_object. Qed.
Print Assumptions C108_object.
Theorem C108_object_refused : forall g o d p, proper g -> i_kind (inst_at g o) = KObj -> has g o (SPr d) p -> locked g p -> copy_obj o g = (g, None).
Proof. exact L_C108_object_refused. Qed.
Print Assumptions C108_object_refused.
Theorem C108_standard : forall g code t, proper g -> i_kind (inst_at g t) = KObj -> (forall d p, has g t (SPr d) p -> ~ locked g p) ->
  exists g' c q, new_standard code t g = (g', Some c) /\ untouched g g' /\ proper g' /\ object_of g g' t c code [(SHandler, c)] q.
Proof. exact L_C108_standard. Qed.
Print Assumptions C108_standard.
Theorem C108_standard_refused : forall g code t d p, proper g -> i_kind (inst_at g t) = KObj -> has g t (SPr d) p -> locked g p -> new_standard code t g = (g, None).
Proof. exact L_C108_standard_refused. Qed.
Print Assumptions C108_standard_refused.
Theorem C108_hear_refused : forall g c ip ts, proper g -> i_kind (inst_at g c) = KCtl -> (forall d t, In (d, t) ts -> i_kind (inst_at g t) = KObj) ->
  (exists d t e p, In (d, t) ts /\ has g t (SPr e) p /\ locked g p) -> hear_node c ip ts g = (g, None).
Proof. exact L_C108_hear_refused. Qed.
Print Assumptions C108_hear_refused.
Theorem C108_stopped : forall g n k x, proper g -> i_kind (inst_at g n) = KNode \/ i_kind (inst_at g n) = KCtl -> x < length g ->
  let g1 := stop_node n g in let g2 := stop_node n (start_node k n g) in
  (forall z, z < length g -> inst_at g2 z = inst_at g1 z) /\ (locked g2 x <-> locked g1 x).
Proof. exact L_C108_stopped. Qed.
Print Assumptions C108_stopped.
Theorem C108_decided : forall prog, let g := fst (crun [] prog) in
  (forall p, i_kind (inst_at g p) = KProp ->
     (snd (cstep g (CCopyProp p)) = CTypeError <-> locked g p) /\ (~ locked g p -> snd (cstep g (CCopyProp p)) = CNew (length g))) /\
  (forall o, i_kind (inst_at g o) = KObj ->
     (snd (cstep g (CCopyObj o)) = CTypeError <-> exists d p, has g o (SPr d) p /\ locked g p)) /\
  (forall code t, i_kind (inst_at g t) = KObj ->
     (snd (cstep g (CStandard code t)) = CTypeError <-> exists d p, has g t (SPr d) p /\ locked g p)) /\
  (forall c ip ts, i_kind (inst_at g c) = KCtl -> (forall d t, In (d, t) ts -> i_kind (inst_at g t) = KObj) ->
     (snd (cstep g (CHear c ip ts)) = CTypeError <-> exists d t e p, In (d, t) ts /\ has g t (SPr e) p /\ locked g p)).
Proof. exact L_C108_decided. Qed.
Print Assumptions C108_decided.
Theorem C108_attached : forall prog, let g := fst (crun [] prog) in
  (forall o p, i_kind (inst_at g o) = KObj -> i_kind (inst_at g p) = KProp ->
     let g' := fst (cstep g (CAddProp o p)) in has g' o (SPr (hd 0%Z (i_val (inst_at g p)))) p /\ has g' p SOwner o) /\
  (forall n o, i_kind (inst_at g n) = KNode \/ i_kind (inst_at g n) = KCtl \/ i_kind (inst_at g n) = KRemote -> i_kind (inst_at g o) = KObj ->
     let g' := fst (cstep g (CAddObj n o)) in has g' n (SObj (hd 0%Z (i_val (inst_at g o)))) o /\ has g' o SNode n) /\
  (forall o u, i_kind (inst_at g o) = KObj -> u < length g -> (exists b, i_kind (inst_at g u) = KUser b) \/ i_kind (inst_at g u) = KObj ->
     has (fst (cstep g (CHandler o u))) o SHandler u) /\
  (forall o k u, i_kind (inst_at g o) = KObj -> u < length g -> (exists b, i_kind (inst_at g u) = KUser b) ->
     has (fst (cstep g (CObserve o k u))) o (SObserver k) u) /\
  (forall n k, i_kind (inst_at g n) = KNode \/ i_kind (inst_at g n) = KCtl -> k <> 0 -> locked (fst (cstep g (CStart k n))) n).
Proof. exact L_C108_attached. Qed.
Print Assumptions C108_attached.
Theorem C108_tame_partial : forall prog, Forall tame prog -> ~ In CTypeError (snd (crun [] prog)).
Proof. exact L_C108_tame_partial. Qed.
Print Assumptions C108_tame_partial.
(** Finding: no property of an object of a started node can be copied. *)
Theorem C108_running_refuted : forall g p o n k, proper g -> has g p SOwner o -> has g o SNode n ->
  i_kind (inst_at g n) = KNode \/ i_kind (inst_at g n) = KCtl -> k <> 0 ->
  deep_copy (start_node k n g) p = (start_node k n g, None).
Proof. exact L_C108_running_refuted. Qed.
Print Assumptions C108_running_refuted.
(** Finding: nor of an object of a controller, started or not. *)
Theorem C108_controller_refuted : forall g p o n, proper g -> has g p SOwner o -> has g o SNode n -> i_kind (inst_at g n) = KCtl ->
  deep_copy g p = (g, None).
Proof. exact L_C108_controller_refuted. Qed.
Print Assumptions C108_controller_refuted.
(** Finding: nor of an object of a node that a controller found. *)
Theorem C108_found_refuted : forall g c ip ts g' n, proper g -> i_kind (inst_at g c) = KCtl -> (forall d t, In (d, t) ts -> i_kind (inst_at g t) = KObj) ->
  hear_node c ip ts g = (g', Some n) ->
  forall d o e p, has g' n (SObj d) o -> has g' o (SPr e) p -> deep_copy g' p = (g', None) /\ copy_obj o g' = (g', None).
Proof. exact L_C108_found_refuted. Qed.
Print Assumptions C108_found_refuted.
(** Finding: once the database's object of a class belongs to a started node, no object of that class can be made and no node that
    has one is found. *)
Theorem C108_template_refuted : forall g t e p n k, proper g -> has g t (SPr e) p -> has g p SOwner t -> has g t SNode n ->
  i_kind (inst_at g n) = KNode \/ i_kind (inst_at g n) = KCtl -> k <> 0 ->
  let g1 := start_node k n g in
  (forall code, new_standard code t g1 = (g1, None)) /\
  (forall c ip ts d, i_kind (inst_at g1 c) = KCtl -> (forall d t, In (d, t) ts -> i_kind (inst_at g1 t) = KObj) -> In (d, t) ts ->
     hear_node c ip ts g1 = (g1, None)).
Proof. exact L_C108_template_refuted. Qed.
Print Assumptions C108_template_refuted.

(** A node with an object that has a property; copies of both before the start, while running and after the stop.  The copy of
    the property brings a second node with it (instances 6 to 11); the copy of the object has one property and no node. *)
Definition cx_make : list ccmd := [CNewNode; CNewSuper 0x029101; CNewProp 0x80 [0x30%Z]; CAddProp 3 4; CAddObj 0 3].
Example C108_ex_before : snd (crun [] (cx_make ++ [CCopyProp 4])) = [CNew 0; CNew 3; CNew 4; CDone; CDone; CNew 5] /\
  skipn 5 (fst (crun [] (cx_make ++ [CCopyProp 4]))) =
  [ mkinst KProp [0x80%Z; 0x30%Z] [(SOwner, 6)];
    mkinst KObj [0x029101%Z] [(SHandler, 6); (SPr 0x80, 5); (SNode, 7)];
    mkinst KNode [] [(SMgr, 8); (SProfile, 9); (SObj 0x0EF001, 9); (SObj 0x029101, 6)];
    mkinst KMgr [] [];
    mkinst KObj [0x0EF001%Z] [(SHandler, 9); (SNode, 7)] ].
Proof. split; vm_compute; reflexivity. Qed.
Example C108_ex_running : snd (crun [] (cx_make ++ [CStart 2 0; CCopyProp 4; CCopyObj 3; CCopyObj 2; CStandard 0x029102 3; CStop 0; CCopyProp 4])) =
  [CNew 0; CNew 3; CNew 4; CDone; CDone; CDone; CTypeError; CTypeError; CNew 7; CTypeError; CDone; CNew 8].
Proof. vm_compute; reflexivity. Qed.
Example C108_ex_object : copy_obj 3 (fst (crun [] (firstn 4 cx_make))) =
  (fst (crun [] (firstn 4 cx_make)) ++
   [mkinst KObj [0x029101%Z] [(SPr 0x80, 6)]; mkinst KProp [0x80%Z; 0x30%Z] [(SOwner, 5)]; mkinst KObj [0x029101%Z] [(SHandler, 7); (SPr 0x80, 6)]], Some 5).
Proof. vm_compute; reflexivity. Qed.
(** A controller: its own objects, and those of a node it hears of. *)
Definition cx_found : list ccmd := [CNewCtl; CNewObj 0x0291FF; CNewProp 0x80 [0x30%Z]; CAddProp 4 5; CHear 0 1 [(0x029101%Z, 4)]].
Example C108_ex_found : snd (crun [] (cx_found ++ [CCopyProp 5; CCopyProp 8; CCopyObj 7; CAddObj 0 4; CCopyProp 5; CHear 0 2 [(0x029101%Z, 4)]])) =
  [CNew 0; CNew 4; CNew 5; CDone; CNew 6; CNew 10; CTypeError; CTypeError; CDone; CTypeError; CTypeError].
Proof. vm_compute; reflexivity. Qed.
(** What cannot be copied need not belong to the library. *)
Example C108_ex_user : snd (crun [] [CNewUser false; CNewUser true; CNewObj 0x029101; CNewProp 0x80 []; CAddProp 2 3; CObserve 2 0 1; CCopyProp 3; CObserve 2 1 0; CCopyProp 3; CCopyObj 2]) =
  [CNew 0; CNew 1; CNew 2; CNew 3; CDone; CDone; CNew 4; CDone; CTypeError; CTypeError] /\
  Forall tame [CNewUser true; CNewObj 0x029101; CNewProp 0x80 []; CAddProp 2 3; CObserve 2 0 1; CCopyProp 3].
Proof. split; [vm_compute; reflexivity|]. repeat constructor. Qed.
Example C108_ex_hyps : let g := fst (crun [] (cx_make ++ [CStart 2 0])) in
  proper g /\ locked g 4 /\ ~ locked (fst (crun [] cx_make)) 4.
Proof.
  intros g. split; [exact (L_C108_proper (cx_make ++ [CStart 2 0]))|]. split.
  - exists 5. split; [|left; reflexivity]. apply (reaches_next g 4 1 (SServer 1)); [|left; reflexivity]. apply (reaches_next g 4 0 SMgr); [|left; reflexivity].
    apply (reaches_next g 4 3 SNode); [|right; right; left; reflexivity]. apply (reaches_next g 4 4 SOwner); [apply reaches_self|left; reflexivity].
  - intros L. pose proof (L_C108_refused (fst (crun [] cx_make)) 4 (proj1 (L_C108_proper cx_make)) ltac:(vm_compute; repeat constructor) L) as E. vm_compute in E. discriminate E.
Qed.
