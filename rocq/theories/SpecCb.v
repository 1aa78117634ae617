(** Specifications for callbacks that use their node (C98). *)
From Verif Require Import PyBase MsgM PropM ObjM SpecWire SpecReq NodeM LocalM SpecNode SpecLocal CbM.

(** The data of property [p] of object [code]. *)
Definition mem_at (s : lnode) (code p : Z) : option (list Z) :=
  match zget code (ln_objs s) with
  | Some o => match zget p (o_props o) with Some x => Some (op_data x) | None => None end
  | None => None
  end.
(** [s'] is [s] after data [d] was stored in property [p] of object [code]. *)
Definition put_at (code p : Z) (d : list Z) (s s' : lnode) : Prop :=
  (match zget code (ln_objs s), zget code (ln_objs s') with
   | Some o, Some o' => o' = set_o_props (o_props o') o /\
       forall x, zget x (o_props o') = if x =? p then option_map (set_op_data d) (zget x (o_props o)) else zget x (o_props o)
   | None, None => True
   | _, _ => False
   end) /\
  (forall c, c <> code -> zget c (ln_objs s') = zget c (ln_objs s)) /\
  ln_mgr s' = ln_mgr s /\ ln_ctl s' = ln_ctl s /\ ln_opts s' = ln_opts s /\ ln_addr s' = ln_addr s.

Section Cb.
Context {U : Type} (w : os) (cb : cbs U) (key : Z).

(** From one state to another by calls of callbacks of the object [key], for request [req], and by
    the stores of written data into this object. *)
Inductive did (req : msg) : cst U -> cst U -> Prop :=
| did_nothing q : did req q q
| did_observer n q q1 r q2 : run_prog w (cb_obs cb (q_u q) key n req) (q_tr q ++ [EvObjObs key n req]) (q_s q) = (q1, r) -> did req q1 q2 -> did req q q2
| did_ask_read p q q1 r q2 : run_prog w (cb_read cb (q_u q) key p) (q_tr q) (q_s q) = (q1, r) -> did req q1 q2 -> did req q q2
| did_ask_write p d q q1 r q2 : run_prog w (cb_write cb (q_u q) key p d) (q_tr q) (q_s q) = (q1, r) -> did req q1 q2 -> did req q q2
| did_store p d q s1 q2 : put_at key p d (q_s q) s1 -> did req (mkcst (q_u q) (q_tr q) s1) q2 -> did req q q2.
End Cb.

(** The service codes of the possible answers. *)
Definition answer_esv (req : Z) : list Z :=
  if req =? 0x60 then [0x50] else if req =? 0x61 then [0x71; 0x50] else if req =? 0x62 then [0x72; 0x52]
  else if req =? 0x6E then [0x7E; 0x5E] else if req =? 0x63 then [0x73; 0x53] else if req =? 0x74 then [0x7A] else [].
(** [rsp] is an answer to [req]. *)
Definition answer_to (req rsp : msg) : Prop :=
  m_TID rsp = m_TID req /\ m_SEOJ rsp = m_DEOJ req /\ m_DEOJ rsp = m_SEOJ req /\ In (m_ESV rsp) (answer_esv (m_ESV req)) /\
  map p_code (m_props rsp) = map p_code (m_props req) /\ map p_code (m_sets rsp) = map p_code (m_sets req) /\
  map p_code (m_gets rsp) = map p_code (m_gets req).

(** No branch of the program stores into object [x]. *)
Fixpoint no_put {U A} (x : Z) (c : prog U A) : Prop :=
  match c with
  | PRet _ _ => True
  | PGet _ _ k => forall r, no_put x (k r)
  | PPut code _ _ k => code <> x /\ forall r, no_put x (k r)
  | PAnnounce _ k => forall m r, no_put x (k m r)
  | PSend _ _ k => forall m r, no_put x (k m r)
  end.
Definition spares {U} (cb : cbs U) (x : Z) : Prop :=
  (forall u key n m, no_put x (cb_obs cb u key n m)) /\ (forall u key p, no_put x (cb_read cb u key p)) /\
  (forall u key p d, no_put x (cb_write cb u key p d)).

(** The announcement of property [p] of object [code] with data [d]. *)
Definition inf (code p : Z) (d : list Z) : msg := mkmsg 0 code 0x0EF001 0x73 [mkprop p d] [] [] None None.
(** Callbacks where the write handler announces what the node holds and accepts. *)
Definition announcing {U} (cb : cbs U) : Prop := forall u key p d,
  cb_write cb u key p d = PGet key (op_code p) (fun r => match r with
    | Ok (Some x) => PAnnounce (inf key (op_code p) x) (fun _ _ => PRet u (Ok true))
    | _ => PRet u (Ok true)
    end).
(** Callbacks where the read handler refreshes the property and accepts. *)
Definition refreshing {U} (cb : cbs U) (f : Z -> Z -> list Z) : Prop := forall u key p,
  cb_read cb u key (Some p) = PPut key (op_code p) (f key (op_code p)) (fun _ => PRet u (Ok true)).
(** Callbacks where the write handler stores something else and accepts. *)
Definition adjusting {U} (cb : cbs U) (f : list Z -> list Z) : Prop := forall u key p d,
  cb_write cb u key p d = PPut key (op_code p) (f d) (fun _ => PRet u (Ok true)).
(** What a node does that has received [m] from [a], when its callbacks use it: after what the callbacks
    did, nothing or one answer. *)
Definition answers_last {U} (w : os) (cb : cbs U) (o : obj) (a : addr) (m : msg) (q q' : cst U) : Prop :=
  exists q1, did w cb (m_DEOJ m) m q q1 /\
  (q' = q1 /\ (o_handler o = HNone \/ ~ In (m_ESV m) [0x61; 0x62; 0x63; 0x6E]) \/
   exists rsp snds t, answer_to m rsp /\ (m_TID m <> 0 -> t = m_TID m) /\
     q_u q' = q_u q1 /\ q_tr q' = q_tr q1 ++ map (fun x => let '(i, b, d, r) := x in EvSend i b d r) snds /\
     ln_objs (q_s q') = ln_objs (q_s q1) /\
     (let b := wire (set_TID t (set_SEOJ (match ln_ctl (q_s q) with None => m_DEOJ m | Some _ => 0x0EF001 end) rsp)) in
      if m_ESV rsp =? 0x73 then casts b MULTICAST (open_ifs (q_s q)) snds else tries b a (open_ifs (q_s q)) snds) /\
     (m_ESV m = 0x62 \/ m_ESV m = 0x6E -> Forall (fun rp => p_data rp = [] \/
        exists qi, did w cb (m_DEOJ m) m q qi /\ did w cb (m_DEOJ m) m qi q1 /\ mem_at (q_s qi) (m_DEOJ m) (p_code rp) = Some (p_data rp))
        (if m_ESV m =? 0x62 then m_props rsp else m_gets rsp))).
(** Write handlers that accept, whatever else they do. *)
Definition accepts {U} (w : os) (cb : cbs U) : Prop := forall u key p d tr s, snd (run_prog w (cb_write cb u key p d) tr s) = Ok true.
(** Callbacks of which the observers do nothing. *)
Definition idle {U} (cb : cbs U) : Prop := forall u key n m, cb_obs cb u key n m = PRet u (Ok tt).

(** [m1] is what is left of [m] after the node, now [s1], was told to send it: it has the transaction number
    under which it went, the one it had or else the node's latest, and nothing else of its contents changed. *)
Definition handed_back (m m1 : msg) (s1 : lnode) : Prop :=
  m_TID m1 = (if m_TID m =? 0 then g_tid (ln_mgr s1) else m_TID m) /\
  (ln_ctl s1 = None -> m_SEOJ m1 = m_SEOJ m) /\ m_DEOJ m1 = m_DEOJ m /\ m_ESV m1 = m_ESV m /\
  m_props m1 = m_props m /\ m_sets m1 = m_sets m /\ m_gets m1 = m_gets m /\ m_from m1 = m_from m.
