(** Property C107: properties that are given another code. *)
From Verif Require Import PyBase BytesM EsvM MsgM PropM ObjM DbData DbM HeapM MapP KeyM SpecKey KeyP.
Local Open Scope nat_scope.

Theorem C107_assign : forall (PS : PySet) h l p own, nth_error (h_props h) l = Some (p, own) ->
  (forall c, let h' := fst (kstep h (KCode l c)) in
     h_objs h' = h_objs h /\ nth_error (h_props h') l = Some (mkoprop c (op_data p) (op_get p) (op_set p) (op_anno p), own) /\
     forall x, x <> l -> nth_error (h_props h') x = nth_error (h_props h) x) /\
  (forall d, let h' := fst (kstep h (KData l d)) in
     h_objs h' = h_objs h /\ nth_error (h_props h') l = Some (mkoprop (op_code p) d (op_get p) (op_set p) (op_anno p), own) /\
     forall x, x <> l -> nth_error (h_props h') x = nth_error (h_props h) x).
Proof. exact L_C107_assign. Qed.
Print Assumptions C107_assign.
Theorem C107_found : forall (PS : PySet) prog h i c,
  h_get c i (fst (krun h prog)) = match last_added (registered h prog) i c with Some l => Some l | None => h_get c i h end.
Proof. exact L_C107_found. Qed.
Print Assumptions C107_found.
Theorem C107_codes : forall (PS : PySet) prog h x, x < length (h_props (fst (krun h prog))) ->
  nth_error (rg_codes (registered h prog)) x = Some (op_code (hval (fst (krun h prog)) x)).
Proof. exact L_C107_codes. Qed.
Print Assumptions C107_codes.
Theorem C107_sound : forall (PS : PySet) prog h, sound_heap h -> sound_heap (fst (krun h prog)).
Proof. exact L_C107_sound. Qed.
Print Assumptions C107_sound.
Theorem C107_read : forall h i m, o_handler (ho_val (hobj_at h i)) = HSuper \/ o_handler (ho_val (hobj_at h i)) = HReadOnly ->
  m_ESV m = 0x62%Z -> m_sets m = [] -> m_gets m = [] ->
  h_received i m h = (h, Ok (Some (mkmsg (m_TID m) (m_DEOJ m) (m_SEOJ m)
    (if forallb (fun p => readable h i (p_code p)) (m_props m) then 0x72%Z else 0x52%Z) (map (read_item h i) (m_props m)) [] [] None None))).
Proof. exact L_C107_read. Qed.
Print Assumptions C107_read.
Theorem C107_write : forall h i m, sound_heap h -> o_handler (ho_val (hobj_at h i)) = HSuper ->
  m_ESV m = 0x61%Z -> m_sets m = [] -> m_gets m = [] ->
  exists h', h_received i m h = (h', Ok (Some (mkmsg (m_TID m) (m_DEOJ m) (m_SEOJ m)
    (if forallb (fun p => writable h i (p_code p)) (m_props m) then 0x71%Z else 0x50%Z) (map (write_item h i) (m_props m)) [] [] None None))) /\
    same_but_data h h' /\ forall x, op_data (hval h' x) = data_after h i x (m_props m).
Proof. exact L_C107_write. Qed.
Print Assumptions C107_write.
Theorem C107_maps : forall (PS : PySet) h i l a g s, sound_heap h -> i < length (h_objs h) -> l < length (h_props h) ->
  o_cls (ho_val (hobj_at h i)) <> CObject ->
  let h' := fst (kstep h (KAdd i l)) in
  h_get 0x9D i h' = Some a -> h_get 0x9F i h' = Some g -> h_get 0x9E i h' = Some s -> a <> g -> a <> s -> g <> s ->
  few (listed h' i must_tell) -> few (listed h' i may_get) -> few (listed h' i may_set) ->
  snd (kstep h (KAdd i l)) = ABool (Ok true) /\
  describes (op_data (hval h' a)) (listed h' i must_tell) /\
  describes (op_data (hval h' g)) (listed h' i may_get) /\
  describes (op_data (hval h' s)) (listed h' i may_set).
Proof. exact L_C107_maps. Qed.
Print Assumptions C107_maps.
Theorem C107_copy : forall h i, sound_heap h -> i < length (h_objs h) ->
  let '(h', j) := h_copy_object i h in
  j = length (h_objs h) /\
  o_code (ho_val (hobj_at h' j)) = o_code (ho_val (hobj_at h i)) /\ o_name (ho_val (hobj_at h' j)) = o_name (ho_val (hobj_at h i)) /\
  (forall c, option_map (hval h') (h_get c j h') = last_with c (map (hval h) (map snd (ho_dict (hobj_at h i))))) /\
  (forall x, x < length (h_props h) -> hval h' x = hval h x) /\
  (forall y, y < length (h_objs h) -> hobj_at h' y = hobj_at h y) /\
  (forall c y, h_get c j h' = Some y -> length (h_props h) <= y).
Proof. exact L_C107_copy. Qed.
Print Assumptions C107_copy.
Theorem C107_settled_partial : forall (PS : PySet) prog h, sound_heap h -> keyed h ->
  settled (mkreg (map (fun p => op_code (fst p)) (h_props h)) [], length (h_objs h)) prog ->
  (forall l c, In (KCode l c) prog -> forall i k, h_get k i h <> Some l) ->
  keyed (fst (krun h prog)) /\
  forall i c, let h' := fst (krun h prog) in
    readable h' i c = match h_get c i h' with Some l => allowed (op_get (hval h' l)) | None => false end /\
    writable h' i c = match h_get c i h' with Some l => allowed (op_set (hval h' l)) | None => false end /\
    forall right, listed h' i right c <-> exists l, h_get c i h' = Some l /\ right (hval h' l) = true.
Proof. exact L_C107_settled_partial. Qed.
Print Assumptions C107_settled_partial.
Theorem C107_again : forall (PS : PySet) h i a ca c, sound_heap h -> i < length (h_objs h) -> h_get ca i h = Some a -> ca <> c ->
  let h' := fst (krun h [KCode a c; KAdd i a]) in
  h_get ca i h' = Some a /\ h_get c i h' = Some a /\
  readable h' i ca = allowed (op_get (hval h a)) /\ readable h' i c = allowed (op_get (hval h a)) /\
  writable h' i ca = allowed (op_set (hval h a)) /\ writable h' i c = allowed (op_set (hval h a)).
Proof. exact L_C107_again. Qed.
Print Assumptions C107_again.
(** Finding: the rights of another property decide. *)
Theorem C107_rights_refuted : forall (PS : PySet) h i a b ca cb d m, sound_heap h -> o_handler (ho_val (hobj_at h i)) = HSuper ->
  h_get ca i h = Some a -> h_get cb i h = Some b -> a <> b -> op_set (hval h a) = 0%Z -> op_set (hval h b) = 1%Z ->
  m_ESV m = 0x61%Z -> m_props m = [mkprop ca d] -> m_sets m = [] -> m_gets m = [] ->
  exists h', h_received i m (fst (kstep h (KCode a cb))) =
      (h', Ok (Some (mkmsg (m_TID m) (m_DEOJ m) (m_SEOJ m) 0x71 [mkprop ca []] [] [] None None))) /\
    op_data (hval h' a) = d /\ op_set (hval h' a) = 0%Z.
Proof. exact L_C107_rights_refuted. Qed.
Print Assumptions C107_rights_refuted.
(** Finding: a property with a new code is refused under both codes. *)
Theorem C107_lost_refuted : forall (PS : PySet) h i a ca c m, sound_heap h ->
  o_handler (ho_val (hobj_at h i)) = HSuper \/ o_handler (ho_val (hobj_at h i)) = HReadOnly ->
  h_get ca i h = Some a -> h_get c i h = None -> m_ESV m = 0x62%Z -> m_sets m = [] -> m_gets m = [] ->
  forall k, k = ca \/ k = c -> m_props m = [mkprop k []] ->
    snd (h_received i m (fst (kstep h (KCode a c)))) =
      Ok (Some (mkmsg (m_TID m) (m_DEOJ m) (m_SEOJ m) 0x52 [mkprop k []] [] [] None None)).
Proof. exact L_C107_lost_refuted. Qed.
Print Assumptions C107_lost_refuted.
(** Finding: the map names a code under which nothing is found. *)
Theorem C107_maps_refuted : forall (PS : PySet) h i a ca c l, sound_heap h -> i < length (h_objs h) -> l < length (h_props h) ->
  o_cls (ho_val (hobj_at h i)) <> CObject -> h_get ca i h = Some a -> h_get c i h = None -> may_get (hval h a) = true ->
  l <> a -> op_code (hval h l) <> c -> op_code (hval h l) <> ca ->
  let h' := fst (krun h [KCode a c; KAdd i l]) in
  forall t g s, h_get 0x9D i h' = Some t -> h_get 0x9F i h' = Some g -> h_get 0x9E i h' = Some s -> t <> g -> t <> s -> g <> s ->
  few (listed h' i must_tell) -> few (listed h' i may_get) -> few (listed h' i may_set) ->
  h_get c i h' = None /\ exists cs, op_data (hval h' g) = zlen cs :: cs /\ In c cs.
Proof. exact L_C107_maps_refuted. Qed.
Print Assumptions C107_maps_refuted.
(** Finding: a copy has the property under another code than the original. *)
Theorem C107_copy_refuted : forall (PS : PySet) h i a ca c, sound_heap h -> keyed h -> i < length (h_objs h) ->
  h_get ca i h = Some a -> ca <> c ->
  let h1 := fst (kstep h (KCode a c)) in
  let '(h', j) := h_copy_object i h1 in
  h_get ca i h' = Some a /\ h_get ca j h' = None /\ h_get c j h' <> None.
Proof. exact L_C107_copy_refuted. Qed.
Print Assumptions C107_copy_refuted.

Local Open Scope Z_scope.
(** An object with its three maps, a read-only property 80 and a writable property 81; then 80 becomes 81 and 81
    becomes E0, and another property is added. *)
Definition kx_prop (n : nat) (c : Z) (d : list Z) (get set : Z) : list kcmd :=
  [KProp c d; KAttr n 0 get; KAttr n 1 set; KAdd 0 n].
Definition kx_start : list kcmd :=
  [KSuper (PInt 0x029101)] ++ kx_prop 0 0x9D [] 1 0 ++ kx_prop 1 0x9E [] 1 0 ++ kx_prop 2 0x9F [] 1 0 ++
  kx_prop 3 0x80 [0x30] 1 0 ++ kx_prop 4 0x81 [0x42] 1 1.
Definition kx_read (c : Z) : msg := mkmsg 1 0x05FF01 0x029101 0x62 [mkprop c []] [] [] None None.
Definition kx_write (c : Z) (d : list Z) : msg := mkmsg 2 0x05FF01 0x029101 0x61 [mkprop c d] [] [] None None.
Definition kx_answer (esv c : Z) (d : list Z) : answer :=
  AMsg (Ok (Some (mkmsg (if (esv =? 0x72) || (esv =? 0x52) then 1 else 2) 0x029101 0x05FF01 esv [mkprop c d] [] [] None None))).
Example C107_ex_before : @settled (mkreg [] [], 0%nat) kx_start /\
  snd (@krun pyset_nodup (fst (@krun pyset_nodup (mkheap [] []) kx_start)) [KRecv 0 (kx_read 0x80); KRecv 0 (kx_write 0x80 [0x31]); KRecv 0 (kx_write 0x81 [0x43])]) =
  [kx_answer 0x72 0x80 [0x30]; kx_answer 0x50 0x80 [0x31]; kx_answer 0x71 0x81 []].
Proof.
  split; [|vm_compute; reflexivity]. cbn. repeat (split; [exact I|]). exact I.
Qed.
Example C107_ex_after :
  let h := fst (@krun pyset_nodup (mkheap [] []) (kx_start ++ [KCode 3 0x81])) in
  snd (@krun pyset_nodup h [KRecv 0 (kx_write 0x80 [0x31]); KRecv 0 (kx_read 0x80); KCode 4 0xE0; KRecv 0 (kx_read 0x81); KRecv 0 (kx_read 0xE0)]) =
    [kx_answer 0x71 0x80 []; kx_answer 0x72 0x80 [0x31]; ANone; kx_answer 0x52 0x81 []; kx_answer 0x52 0xE0 []] /\
  let h2 := fst (@krun pyset_nodup h ([KCode 4 0xE0] ++ kx_prop 5 0xF0 [] 1 1)) in
  h_get_data 0x9F 0 h2 = Some [6; 0x9D; 0x9E; 0x9F; 0x81; 0xE0; 0xF0] /\ h_get 0xE0 0 h2 = None /\ h_get 0x80 0 h2 = Some 3%nat.
Proof. vm_compute. repeat split. Qed.
