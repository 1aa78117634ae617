(** References between properties, objects, nodes and controllers, for requests through objects and properties:
    /repo/uecho/property.py:55-58, 102-125, object.py:91-98, 222-227, 269-328, node.py:25-58, remote_node.py:30-58,
    controller.py:239-251.  CtrlM.v models the same methods for an object of a node that is in the table. *)
From Verif Require Import PyBase BytesM MsgM PropM ObjM NodeM LocalM CtrlM AddrM DestM.

(** Instances are numbered in the order of their creation. *)
Record gprop := mkgp { gp_code : Z; gp_obj : option nat }.
Record gobj := mkgo { go_code : Z; go_props : list (Z * nat); go_node : option nat }.
(** A node: whether it is a RemoteNode, its attribute controller, its address (AddrM.v) and its table. *)
Record gnode := mkgn { gn_remote : bool; gn_ctl : option nat; gn_addr : anode; gn_objs : list (Z * nat) }.
(** [gr_found]: for every controller its table of found nodes. *)
Record graph := mkgr { gr_props : list gprop; gr_objs : list gobj; gr_nodes : list gnode; gr_found : list (list (string * nat)) }.

Fixpoint upd {A} (i : nat) (f : A -> A) (l : list A) : list A :=
  match l, i with
  | [], _ => []
  | x :: r, O => f x :: r
  | x :: r, S i => x :: upd i f r
  end.
Definition on_prop i f g := mkgr (upd i f (gr_props g)) (gr_objs g) (gr_nodes g) (gr_found g).
Definition on_obj i f g := mkgr (gr_props g) (upd i f (gr_objs g)) (gr_nodes g) (gr_found g).
Definition on_node i f g := mkgr (gr_props g) (gr_objs g) (upd i f (gr_nodes g)) (gr_found g).
Definition on_found i f g := mkgr (gr_props g) (gr_objs g) (gr_nodes g) (upd i f (gr_found g)).

Inductive gop :=
| GProp (c : Z)                        (* Property(c) *)
| GObj (c : Z)                         (* Object(c) *)
| GNode (remote : bool) (v : pyval)    (* Node.__init__ of a RemoteNode(v) or another node *)
| GAddProp (o p : nat)                 (* o.add_property(p) *)
| GAddObj (n o : nat)                  (* n.add_object(o) *)
| GSetCode (o : nat) (c : Z)           (* o.set_code(c) *)
| GSetAddr (n : nat) (v : pyval)       (* n.set_address(v) *)
| GRegister (c n : nat).               (* the end of c._add_found_node(n) *)

Definition g_step (g : graph) (op : gop) : graph :=
  match op with
  | GProp c => mkgr (gr_props g ++ [mkgp c None]) (gr_objs g) (gr_nodes g) (gr_found g)
  | GObj c => mkgr (gr_props g) (gr_objs g ++ [mkgo c [] None]) (gr_nodes g) (gr_found g)
  | GNode r v => mkgr (gr_props g) (gr_objs g) (gr_nodes g ++ [mkgn r None (a_new v) []]) (gr_found g)
  | GAddProp o p =>   (* object.py:222-227 *)
      match nth_error (gr_props g) p with
      | None => g
      | Some x => on_prop p (fun x => mkgp (gp_code x) (Some o))
                    (on_obj o (fun y => mkgo (go_code y) (zset (gp_code x) p (go_props y)) (go_node y)) g)
      end
  | GAddObj n o =>    (* node.py:52-57 *)
      match nth_error (gr_objs g) o with
      | None => g
      | Some x => on_obj o (fun x => mkgo (go_code x) (go_props x) (Some n))
                    (on_node n (fun y => mkgn (gn_remote y) (gn_ctl y) (gn_addr y) (zset (go_code x) o (gn_objs y))) g)
      end
  | GSetCode o c => on_obj o (fun x => mkgo c (go_props x) (go_node x)) g
  | GSetAddr n v => on_node n (fun x => mkgn (gn_remote x) (gn_ctl x) (fst (a_set v (gn_addr x))) (gn_objs x)) g
  | GRegister c n =>  (* controller.py:240-241, 248-251; hosts of found nodes are strings *)
      match nth_error (gr_nodes g) n with
      | None => g
      | Some x =>
          if negb (gn_remote x) then g
          else on_node n (fun x => mkgn (gn_remote x) (Some c) (gn_addr x) (gn_objs x))
                 match a_ip (gn_addr x) with VStr h => on_found c (sset h n) g | _ => g end
      end
  end.
Definition g_run (g : graph) (ops : list gop) : graph := fold_left g_step ops g.
(** A program with [k] controllers that has made nothing yet. *)
Definition g_empty (k : nat) : graph := mkgr [] [] [] (repeat [] k).

(** What sending or posting through an object comes to: False (None for post_message), AttributeError, or the controller
    that sends or posts the message to the node with this address. *)
Inductive uout := UFalse | URaise | USent (c : nat) (m : msg) (a : anode).
(** Object.send_message, post_message, object.py:300-328: self.node.controller; only a RemoteNode has the attribute
    controller. *)
Definition use_obj (g : graph) (o : nat) (esv : Z) (props : props_arg) : uout :=
  match nth_error (gr_objs g) o with
  | None => URaise
  | Some x =>
      match create_message (go_code x) esv props with
      | None => UFalse
      | Some m =>
          match go_node x with
          | None => URaise
          | Some n =>
              match nth_error (gr_nodes g) n with
              | Some y => if gn_remote y then match gn_ctl y with Some c => USent c m (gn_addr y) | None => URaise end else URaise
              | None => URaise
              end
          end
      end
  end.
(** Property.send_message, post_message, property.py:102-125. *)
Definition use_prop (g : graph) (p : nat) (esv : Z) (data : list Z) : uout :=
  match nth_error (gr_props g) p with
  | None => URaise
  | Some x => match gp_obj x with None => URaise | Some o => use_obj g o esv (LList [PPair (gp_code x) data]) end
  end.

(** ** An announcement is received *)
Section Heard.
(** The property codes of the standard object of a code (DbM.v). *)
Variable std : Z -> list Z.
(** StandardObject(c), std/object.py. *)
Definition new_std (c : Z) (g : graph) : graph * nat :=
  let o := length (gr_objs g) in
  (fold_left (fun g pc => g_step (g_step g (GProp pc)) (GAddProp o (length (gr_props g)))) (std c) (g_step g (GObj c)), o).
Definition add_std (n : nat) (g : graph) (c : Z) : graph := let '(g, o) := new_std c g in g_step g (GAddObj n o).
(** RemoteNode(addr), remote_node.py:30-33, and the loop of parse_message, remote_node.py:52-56. *)
Definition new_remote (v : pyval) (codes : list Z) (g : graph) : graph * nat :=
  let n := length (gr_nodes g) in (fold_left (add_std n) (0x0EF001 :: codes) (g_step g (GNode true v)), n).

(** What a listener does when it is told of a node: requests through node.get_object(code), or through an object that it
    holds. *)
Inductive use := UThrough (code esv : Z) (props : props_arg) | UHeld (o : nat) (esv : Z) (props : props_arg).
Definition run_use (g : graph) (n : nat) (u : use) : uout :=
  match u with
  | UHeld o esv props => use_obj g o esv props
  | UThrough code esv props =>
      match nth_error (gr_nodes g) n with
      | None => URaise
      | Some y => match zget code (gn_objs y) with Some o => use_obj g o esv props | None => URaise end
      end
  end.
(** The listeners are told, controller.py:223-229: the requests that were sent, and whether all of them came back. *)
Fixpoint told (g : graph) (n : nat) (us : list use) : list uout * bool :=
  match us with
  | [] => ([], true)
  | u :: r => match run_use g n u with URaise => ([], false) | x => let '(l, b) := told g n r in (x :: l, b) end
  end.
(** Controller.message_received for an announcement of the objects [codes] from [a], controller.py:289-292, 239-251.
    [cbs]: for every listener what it does. *)
Definition heard (c : nat) (a : addr) (codes : list Z) (cbs : list (list use)) (g : graph) : graph * list uout * bool :=
  let '(g, n) := new_remote (VTuple [VStr (fst a); VInt (snd a)]) codes g in
  let '(l, ok) := told g n (concat cbs) in
  if ok then (g_step g (GRegister c n), l, true) else (g, l, false).
(** Controller.get_node of an address in the table, and the object of a code there. *)
Definition found_obj (g : graph) (c : nat) (h : string) (code : Z) : option nat :=
  match nth_error (gr_found g) c with
  | None => None
  | Some t => match sget h t with None => None | Some n => match nth_error (gr_nodes g) n with None => None | Some y => zget code (gn_objs y) end end
  end.
End Heard.
