(** Model of the loop with which /repo/bin/uechobench.py (lines 55-84) and /repo/bin/uechosearch.py
    (lines 66-92) show the mandatory properties of a found node, on the network of a controller and a
    device of SpecEnd.v. *)
From Verif Require Import PyBase MsgM PropM ObjM SpecWire SpecReq NodeM LocalM CtrlM SpecNode SpecLocal SpecSrv SpecCtrl SpecEnd.

(** When the answer to prop.send_message arrives: before prop.post_message is called, during it and
    before the answer to its own request, or during it and after that. *)
Inductive arrival := Early | Middle | Late.

(** One property, uechobench.py:76-83: "prop.send_message(ESV.READ_REQUEST)",
    "res_msg = prop.post_message(ESV.READ_REQUEST)", and the data of the properties of the answer. *)
Definition tool_read {PS : PySet} (wc wd : os) (jc jd : nat) (ac an : addr) (n : node) (o : obj) (p : oprop) (z : arrival) (x : world)
  : world * res (list (list Z)) :=
  match property_send wc (x_ctr x) (x_ctl x) n o p 0x62 [] with
  | (c1, tc1, Err e) => (mkworld c1 tc1 (x_dev x) (x_dtr x), Err e)
  | (c1, tc1, Ok _) =>
      let '(d1, td1) := arrive wd (x_dtr x) (x_dev x) jd ac (reach an (since (x_ctr x) tc1)) in
      let a1 := reach ac (since (x_dtr x) td1) in
      let '(c2, tc2) := arrive wc tc1 c1 jc an (match z with Early => a1 | _ => [] end) in
      match property_post wc tc2 c2 n o p 0x62 [] with
      | (c3, tc3, _, Err e) => (mkworld c3 tc3 d1 td1, Err e)
      | (c3, tc3, _, Ok false) => (mkworld c3 tc3 d1 td1, Ok [])
      | (c3, tc3, _, Ok true) =>
          let '(d2, td2) := arrive wd td1 d1 jd ac (reach an (since tc2 tc3)) in
          let a2 := reach ac (since td1 td2) in
          let '(c4, tc4) := arrive wc tc3 c3 jc an (match z with Early => a2 | Middle => a1 ++ a2 | Late => a2 ++ a1 end) in
          (mkworld c4 tc4 d2 td2, Ok (match post_end c4 with Some m => map p_data (m_props m) | None => [] end))
      end
  end.
(** The loops over node.objects and obj.properties. *)
Definition tool_pairs (n : node) : list (obj * oprop) :=
  flat_map (fun o => map (fun p => (o, p)) (filter is_read_required (dvals (o_props o)))) (node_objects n).
Fixpoint tool_reads {PS : PySet} (wc wd : os) (jc jd : nat) (ac an : addr) (n : node) (l : list (obj * oprop)) (z : nat -> arrival) (x : world)
  : world * res (list (list (list Z))) :=
  match l with
  | [] => (x, Ok [])
  | (o, p) :: r =>
      match tool_read wc wd jc jd ac an n o p (z O) x with
      | (x1, Err e) => (x1, Err e)
      | (x1, Ok a) =>
          match tool_reads wc wd jc jd ac an n r (fun i => z (S i)) x1 with
          | (x2, Err e) => (x2, Err e)
          | (x2, Ok al) => (x2, Ok (a :: al))
          end
      end
  end.
(** The data shown for one node. *)
Definition tool_node {PS : PySet} (wc wd : os) (jc jd : nat) (ac an : addr) (n : node) (z : nat -> arrival) (x : world)
  : world * res (list (list (list Z))) := tool_reads wc wd jc jd ac an n (tool_pairs n) z x.
