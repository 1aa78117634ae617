(** Specification for the device of the documentation (C102). *)
From Verif Require Import PyBase MsgM PropM ObjM SpecReq SpecMono.

(** What the documented handler says to a write of [w] to property [code] while property 0x80 holds [d]. *)
Inductive verdict := accept | refuse | fail.
Definition doc_verdict (d : list Z) (code : Z) (w : list Z) : verdict :=
  if code =? 0x80 then
    match d, w with
    | [_], [] => fail                              (* data[0] of no data *)
    | [_], x :: _ => if on_offb x then accept else refuse
    | _, _ => refuse
    end
  else refuse.
(** A list of writes: the content of property 0x80 afterwards, and either the properties of the answer and the
    number of accepted ones, or an exception.  [known]: the properties the device has. *)
Fixpoint doc_writes (known : Z -> bool) (d : list Z) (l : list prop) : list Z * res (list prop * Z) :=
  match l with
  | [] => (d, Ok ([], 0))
  | mp :: r =>
      let go d' rp n :=
        match doc_writes known d' r with
        | (d'', Ok (ps, k)) => (d'', Ok (rp :: ps, n + k))
        | (d'', Err e) => (d'', Err e)
        end in
      if known (p_code mp) then
        match doc_verdict d (p_code mp) (p_data mp) with
        | fail => (d, Err IndexError)
        | accept => go (p_data mp) (mkprop (p_code mp) []) 1
        | refuse => go d mp 0
        end
      else go d (mkprop (p_code mp) []) 0
  end.
(** A list of reads. *)
Definition doc_reads (d : list Z) (l : list prop) : list prop * Z :=
  (map (fun mp => mkprop (p_code mp) (if p_code mp =? 0x80 then d else [])) l,
   Z.of_nat (length (filter (fun mp => p_code mp =? 0x80) l))).
(** The content of property 0x80 after a message and the answer. *)
Definition doc_answer (known : Z -> bool) (d : list Z) (m : msg) : list Z * res (option msg) :=
  let n := Z.of_nat (length (m_props m) + length (m_sets m) + length (m_gets m)) in
  let reply e ps ss gs := Ok (Some (mkmsg (m_TID m) (m_DEOJ m) (m_SEOJ m) e ps ss gs None None)) in
  let e := m_ESV m in
  if (e =? 0x60) || (e =? 0x61) then
    match doc_writes known d (m_props m) with
    | (d', Err x) => (d', Err x)
    | (d', Ok (ps, k)) => (d', if k =? n then (if e =? 0x60 then Ok None else reply 0x71 ps [] []) else reply 0x50 ps [] [])
    end
  else if e =? 0x62 then
    let '(ps, k) := doc_reads d (m_props m) in (d, reply (if k =? n then 0x72 else 0x52) ps [] [])
  else if e =? 0x6E then
    match doc_writes known d (m_sets m) with
    | (d', Err x) => (d', Err x)
    | (d', Ok (ss, k)) =>
        if existsb (fun mp => negb (known (p_code mp))) (m_gets m) then (d', Err AttributeError)
        else let '(gs, j) := doc_reads d' (m_gets m) in (d', reply (if k + j =? n then 0x7E else 0x5E) [] ss gs)
    end
  else if e =? 0x63 then
    (d, reply (if 0 =? n then 0x73 else 0x53) (map (fun mp => mkprop (p_code mp) []) (m_props m)) [] [])
  else if e =? 0x74 then
    (d, if 0 =? n then reply 0x7A [] [] [] else Ok None)
  else (d, Ok None).
(** [o] is the device [o0] with content [d] of property 0x80 and otherwise the same properties. *)
Definition doc_device (h : handler) (o0 : obj) (d : list Z) (o : obj) : Prop :=
  o_handler o = h /\ o_code o = o_code o0 /\ wf_obj o0 /\
  forall c, get_property c o = if c =? 0x80 then option_map (set_op_data d) (get_property c o0) else get_property c o0.
(** A history of messages: the content afterwards and the answers. *)
Fixpoint doc_run (known : Z -> bool) (d : list Z) (ms : list msg) : list Z * list (res (option msg)) :=
  match ms with
  | [] => (d, [])
  | m :: r => let '(d1, a) := doc_answer known d m in let '(d2, l) := doc_run known d1 r in (d2, a :: l)
  end.
