(** Property C98: observers and request handlers that use their node. *)
From Verif Require Import PyBase MsgM PropM ObjM NodeM LocalM SpecWire SpecReq SpecNode SpecLocal CbM SpecCb NodeP CbP.

(** C98: after what the callbacks did there is nothing, or one answer that mirrors the request. *)
Theorem C98_answer : forall (U : Type) (w : os) (cb : cbs U) m a o q q',
  received_from a m -> zget (m_DEOJ m) (ln_objs (q_s q)) = Some o ->
  cb_received w cb q m = (q', Ok tt) ->
  answers_last w cb o a m q q'.
Proof. exact L_C98_answer. Qed.
Print Assumptions C98_answer.
(** C98: a read handler that stores a fresh value first: the answer has it. *)
Theorem C98_fresh : forall (U : Type) (w : os) (cb : cbs U) f m a q q' o h,
  received_from a m -> m_ESV m = 0x62%Z -> m_TID m <> 0%Z -> ln_ctl (q_s q) = None ->
  zget (m_DEOJ m) (ln_objs (q_s q)) = Some o -> o_handler o = HUser h -> o_obs o = [] -> wf_obj o ->
  (forall mp, In mp (m_props m) -> get_property (p_code mp) o <> None) -> refreshing cb f ->
  cb_received w cb q m = (q', Ok tt) ->
  exists snds, q_tr q' = q_tr q ++ map (fun x => let '(i, b, d, r) := x in EvSend i b d r) snds /\
    tries (wire (mkmsg (m_TID m) (m_DEOJ m) (m_SEOJ m) 0x72 (map (fun mp => mkprop (p_code mp) (f (m_DEOJ m) (p_code mp))) (m_props m)) [] [] None None))
      a (open_ifs (q_s q)) snds.
Proof. exact L_C98_fresh. Qed.
Print Assumptions C98_fresh.
(** C98: an accepted write leaves the requested data. *)
Theorem C98_written : forall (U : Type) (w : os) (cb : cbs U) m a q q' o h l c d,
  received_from a m -> m_ESV m = 0x60%Z \/ m_ESV m = 0x61%Z -> m_props m = l ++ [mkprop c d] ->
  zget (m_DEOJ m) (ln_objs (q_s q)) = Some o -> o_handler o = HUser h -> get_property c o <> None -> accepts w cb ->
  cb_received w cb q m = (q', Ok tt) ->
  mem_at (q_s q') (m_DEOJ m) c = Some d.
Proof. exact L_C98_written. Qed.
Print Assumptions C98_written.
(** C98: an object that no callback stores into changes only by requests to itself. *)
Theorem C98_isolated : forall (U : Type) (w : os) (cb : cbs U) m a q q' r x,
  received_from a m -> x <> m_DEOJ m -> spares cb x ->
  cb_received w cb q m = (q', r) ->
  zget x (ln_objs (q_s q')) = zget x (ln_objs (q_s q)).
Proof. exact L_C98_isolated. Qed.
Print Assumptions C98_isolated.
(** C98: finding.  A write handler that announces the property announces the data before the write. *)
Theorem C98_announce_old_refuted : forall (U : Type) (w : os) (cb : cbs U) m a q q' o h c d old,
  received_from a m -> m_ESV m = 0x61%Z -> m_TID m <> 0%Z -> m_props m = [mkprop c d] -> ln_ctl (q_s q) = None ->
  zget (m_DEOJ m) (ln_objs (q_s q)) = Some o -> o_handler o = HUser h -> o_obs o = [] -> wf_obj o ->
  mem_at (q_s q) (m_DEOJ m) c = Some old -> (length old <= 255)%nat -> announcing cb ->
  cb_received w cb q m = (q', Ok tt) ->
  mem_at (q_s q') (m_DEOJ m) c = Some d /\
  exists t s1 s2, q_tr q' = q_tr q ++ map (fun x => let '(i, b, d, r) := x in EvSend i b d r) (s1 ++ s2) /\
    casts (wire (set_TID t (inf (m_DEOJ m) c old))) MULTICAST (open_ifs (q_s q)) s1 /\
    tries (wire (mkmsg (m_TID m) (m_DEOJ m) (m_SEOJ m) 0x71 [mkprop c []] [] [] None None)) a (open_ifs (q_s q)) s2.
Proof. exact L_C98_announce_old_refuted. Qed.
Print Assumptions C98_announce_old_refuted.
(** C98: a message keeps the transaction number under which a callback sent it, and whatever was sent is this message. *)
Theorem C98_reuse : forall (U A : Type) (w : os) (k : msg -> res bool -> prog U A) tr s m a,
  (exists evs s1 m1 r, run_prog w (PAnnounce m k) tr s = run_prog w (k m1 r) (tr ++ evs) s1 /\
     handed_back m m1 s1 /\ forall x, In x (sent evs) -> snd (fst (fst x)) = wire m1) /\
  (exists evs s1 m1 r, run_prog w (PSend m a k) tr s = run_prog w (k m1 r) (tr ++ evs) s1 /\
     handed_back m m1 s1 /\ forall x, In x (sent evs) -> snd (fst (fst x)) = wire m1).
Proof. exact L_C98_reuse. Qed.
Print Assumptions C98_reuse.
(** C98: with callbacks that do nothing this is the model of the other properties. *)
Theorem C98_conservative : forall (U : Type) (w : os) (cb : cbs U) u tr s m,
  quiet w -> idle cb -> (forall k o h, zget k (ln_objs s) = Some o -> o_handler o <> HUser h) ->
  cb_received w cb (mkcst u tr s) m = let '(s', tr', r) := local_received w tr s m in (mkcst u tr' s', r).
Proof. exact L_C98_conservative. Qed.
Print Assumptions C98_conservative.
(** A thermometer: its read handler stores the next measured value, its write handler announces. *)
Definition cx_handler : uhandler := mkuhandler (fun _ ps _ => (ps, Ok true)) (fun _ ps _ _ => (ps, Ok true)).
Definition cx_obj : obj := mkobj 0x001101 "thermometer" [(0xE0, mkoprop 0xE0 [0; 20] 1 1 1)] (HUser cx_handler) 0 [7%nat] CSuper.
Definition cx_lamp : obj := mkobj 0x029101 "lamp" [(0x80, mkoprop 0x80 [0x30] 1 1 1)] HSuper 0 [] CSuper.
Definition cx_node : lnode := fst (fst (local_start good_os [] (mkln (mknode None [(0x001101, cx_obj); (0x029101, cx_lamp)]) InTable 1 new_manager None) [])).
Definition cx_cbs : cbs Z := mkcbs Z
  (fun u key n m => PGet 0x029101 0x80 (fun _ => PRet u (Ok tt)))
  (fun u key p => match p with Some p => PPut key (op_code p) [0; u + 1] (fun _ => PRet (u + 1) (Ok true)) | None => PRet u (Ok false) end)
  (fun u key p d => PGet key (op_code p) (fun r => match r with
    | Ok (Some x) => PAnnounce (inf key (op_code p) x) (fun _ _ => PRet u (Ok true))
    | _ => PRet u (Ok true)
    end)).
Definition cx_get (t : Z) : msg := mkmsg t 0x05FF01 0x001101 0x62 [mkprop 0xE0 []] [] [] (Some ("10.0.0.9"%string, 3610)) None.
Definition cx_set (t : Z) : msg := mkmsg t 0x05FF01 0x001101 0x61 [mkprop 0xE0 [0; 5]] [] [] (Some ("10.0.0.9"%string, 3610)) None.
Definition cx_q1 := fst (cb_received good_os cx_cbs (mkcst 20 [] cx_node) (cx_get 4)).
Definition cx_q2 := fst (cb_received good_os cx_cbs cx_q1 (cx_get 5)).
Definition cx_q3 := fst (cb_received good_os cx_cbs cx_q2 (cx_set 6)).
Example C98_ex :
  snd (cb_received good_os cx_cbs (mkcst 20 [] cx_node) (cx_get 4)) = Ok tt /\ snd (cb_received good_os cx_cbs cx_q1 (cx_get 5)) = Ok tt /\
  snd (cb_received good_os cx_cbs cx_q2 (cx_set 6)) = Ok tt /\ q_u cx_q3 = 22 /\ mem_at (q_s cx_q3) 0x001101 0xE0 = Some [0; 5] /\
  map (fun x => let '(i, b, d, r) := x in (b, d)) (sent (q_tr cx_q3)) =
  [(wire (mkmsg 4 0x001101 0x05FF01 0x72 [mkprop 0xE0 [0; 21]] [] [] None None), ("10.0.0.9"%string, 3610));
   (wire (mkmsg 5 0x001101 0x05FF01 0x72 [mkprop 0xE0 [0; 22]] [] [] None None), ("10.0.0.9"%string, 3610));
   (wire (mkmsg 1 0x001101 0x0EF001 0x73 [mkprop 0xE0 [0; 22]] [] [] None None), ("224.0.23.0"%string, 3610));
   (wire (mkmsg 1 0x001101 0x0EF001 0x73 [mkprop 0xE0 [0; 22]] [] [] None None), ("224.0.23.0"%string, 3610));
   (wire (mkmsg 6 0x001101 0x05FF01 0x71 [mkprop 0xE0 []] [] [] None None), ("10.0.0.9"%string, 3610))].
Proof. vm_compute. repeat split. Qed.

(** A callback that announces and then sends the same message: both datagrams have number 1. *)
Example C98_reuse_ex :
  let q := fst (run_prog good_os (PAnnounce (inf 0x001101 0xE0 [0; 20]) (fun m _ => PSend m (Some ("10.0.0.9"%string, 3610)) (fun m1 _ => PRet (m_TID m1) (Ok tt)))) [] cx_node) in
  q_u q = 1 /\ map (fun x => let '(i, b, d, r) := x in (b, d)) (sent (q_tr q)) =
  [(wire (mkmsg 1 0x001101 0x0EF001 0x73 [mkprop 0xE0 [0; 20]] [] [] None None), ("224.0.23.0"%string, 3610));
   (wire (mkmsg 1 0x001101 0x0EF001 0x73 [mkprop 0xE0 [0; 20]] [] [] None None), ("224.0.23.0"%string, 3610));
   (wire (mkmsg 1 0x001101 0x0EF001 0x73 [mkprop 0xE0 [0; 20]] [] [] None None), ("10.0.0.9"%string, 3610))].
Proof. vm_compute. split; reflexivity. Qed.
