(** Model of the controller of the documentation, /repo/doc/controller_overview.md; each string of a list is
    one call of print. *)
From Verif Require Import PyBase BytesM EsvM MsgM PropM ObjM DbM NodeM LocalM CtrlM OutM.
From Verif Require Import SpecEnd.

(** "for i, node in enumerate(ctrl.nodes): ...", controller_overview.md:42-45 *)
Definition guide_object (jo : nat * obj) : string := ("[" ++ pct_d (fst jo) ++ "] " ++ pct_X 6 (o_code (snd jo)) ++ " ")%string.
Definition guide_node (k : nat * node) : list string :=
  ("[" ++ pct_d (fst k) ++ "] " ++ node_ip (snd k))%string :: map guide_object (enumerate 0 (node_objects (snd k))).
Definition guide_list (c : ctl) : list string := flat_map guide_node (enumerate 0 (ctl_nodes c)).

(** The request, controller_overview.md:55-61: Property() is filled in and added (message.py:41-42, 63-66). *)
Definition guide_request (deoj code : Z) (data : list Z) : msg :=
  let m := set_ESV WRITE_REQUEST (set_DEOJ deoj new_msg) in
  fst (add_property (PAProp (mkprop code data)) m).
(** "if res_msg is not None: ...", controller_overview.md:83-86 *)
Definition guide_print (r : option msg) : list string :=
  match r with
  | None => []
  | Some m => pct_X 2 (m_ESV m) :: map (fun p => (pct_X 2 (p_code p) ++ " " ++ to_hex_upper (p_data p) ++ " ")%string) (m_props m)
  end.

Section Guide.
Context {PS : PySet}.
(** ctrl.nodes[0] *)
Definition guide_first (s : lnode) : res node :=
  match ln_ctl s with
  | None => Err AttributeError
  | Some c => match ctl_nodes c with [] => Err IndexError | n :: _ => Ok n end
  end.
(** ctrl.send_message(msg, ctrl.nodes[0]), controller_overview.md:70-74; what reaches the device at address
    [an] arrives at its server [jd] (the device's answers are not looked at). *)
Definition guide_send (wc wd : os) (jd : nat) (ac an : addr) (m : msg) (x : world) : world * res bool :=
  match guide_first (x_ctl x) with
  | Err e => (x, Err e)
  | Ok n =>
      let '(c1, tc1, _, r) := ctl_send wc (x_ctr x) (x_ctl x) m (DNode n) in
      let '(d1, td1) := arrive wd (x_dtr x) (x_dev x) jd ac (reach an (since (x_ctr x) tc1)) in
      (mkworld c1 tc1 d1 td1, r)
  end.
(** res_msg = ctrl.post_message(msg, ctrl.nodes[0]) and what is printed then, controller_overview.md:81-86. *)
Definition guide_post (wc wd : os) (jc jd : nat) (ac an : addr) (m : msg) (x : world) : world * res (list string) :=
  match guide_first (x_ctl x) with
  | Err e => (x, Err e)
  | Ok n => let '(x', r) := transact wc wd jc jd ac an m (DNode n) x in (x', Ok (guide_print r))
  end.
End Guide.
