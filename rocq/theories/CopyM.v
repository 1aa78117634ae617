(** Instances and the references between them, for copy.deepcopy (property.py:172-176), Object.copy
    (object.py:438-444) and _set_object_properties (super_object.py:37-44) on objects that are attached to
    nodes, controllers, servers, handlers and observers.

    An instance has a kind, a value (the immutable part of its attributes; of a property the code and the
    data, of an object the code) and named references.  Lists and dictionaries are part of the instance that
    holds them.  The contents of property maps, names and rights are not here (HeapM.v has them). *)
From Verif Require Import PyBase.

Inductive kind : Type :=
| KProp                 (* Property *)
| KObj                  (* Object, SuperObject, StandardObject, Device, Profile *)
| KNode                 (* LocalNode *)
| KCtl                  (* Controller *)
| KRemote               (* RemoteNode *)
| KMgr                  (* Manager *)
| KSrv                  (* UnicastServer, MulticastServer: threading.Thread with a socket *)
| KCond                 (* threading.Condition *)
| KUser (ok : bool).    (* an observer, a handler or a listener of the program; can it be copied? *)
Inductive slot : Type :=
| SOwner                (* Property.object, property.py:54 *)
| SPr (code : Z)      (* Object.__properties, object.py:94 *)
| SNode                 (* Object.node, object.py:95 *)
| SHandler              (* Object.__request_handler, object.py:96 *)
| SObserver (n : nat)   (* Object.__msg_subject, Server.__msg_subject *)
| SObj (code : Z)       (* Node.__objects, node.py:23 *)
| SMgr                  (* LocalNode.__manager, local_node.py:27 *)
| SProfile              (* LocalNode.__node_profile_obj, local_node.py:28 *)
| SServer (n : nat)     (* Manager.servers, manager.py:25 *)
| SCond                 (* Controller.__last_post_cond, controller.py:81 *)
| SFound (ip : Z)       (* Controller.__found_nodes, controller.py:79; addresses are numbers *)
| SListener (n : nat)   (* Controller.__listeners *)
| SCtl.                 (* RemoteNode.controller, remote_node.py:28 *)
Record inst := mkinst { i_kind : kind; i_val : list Z; i_refs : list (slot * nat) }.
Definition graph := list inst.
Definition no_inst : inst := mkinst (KUser true) [] [].
Definition inst_at (g : graph) (x : nat) : inst := nth x g no_inst.

Definition slot_eqb (a b : slot) : bool :=
  match a, b with
  | SPr c, SPr d | SObj c, SObj d | SFound c, SFound d => c =? d
  | SObserver c, SObserver d | SServer c, SServer d | SListener c, SListener d => (c =? d)%nat
  | SOwner, SOwner | SNode, SNode | SHandler, SHandler | SMgr, SMgr | SProfile, SProfile | SCond, SCond | SCtl, SCtl => true
  | _, _ => false
  end.
Fixpoint get_ref (s : slot) (l : list (slot * nat)) : option nat :=
  match l with [] => None | (t, x) :: r => if slot_eqb s t then Some x else get_ref s r end.
Fixpoint set_ref (s : slot) (x : nat) (l : list (slot * nat)) : list (slot * nat) :=
  match l with [] => [(s, x)] | (t, y) :: r => if slot_eqb s t then (t, x) :: r else (t, y) :: set_ref s x r end.
Definition drop_refs (f : slot -> bool) (l : list (slot * nat)) : list (slot * nat) := filter (fun p => negb (f (fst p))) l.
Definition put_inst (x : nat) (i : inst) (g : graph) : graph := upd g x i.
(** x.s = y *)
Definition point (x : nat) (s : slot) (y : nat) (g : graph) : graph :=
  let i := inst_at g x in put_inst x (mkinst (i_kind i) (i_val i) (set_ref s y (i_refs i))) g.
Definition alloc (k : kind) (v : list Z) (refs : list (slot * nat)) (g : graph) : graph * nat := (g ++ [mkinst k v refs], length g).

(** ** copy.deepcopy
    The memo maps instances to their copies.  An instance is made, entered in the memo, and given copies of
    what it refers to.  Threads, sockets, locks and conditions cannot be copied: TypeError ([None]).  What was
    copied until then nothing refers to; it is left out of the result of a copy that fails. *)
Definition copyable (k : kind) : bool :=
  match k with KSrv | KCond => false | KUser ok => ok | _ => true end.
Definition memo := list (nat * nat).
Fixpoint recall (x : nat) (m : memo) : option nat :=
  match m with [] => None | (a, b) :: r => if (x =? a)%nat then Some b else recall x r end.
Definition cstate := (graph * memo)%type.
Fixpoint copy_refs (rec : cstate -> nat -> cstate * option nat) (l : list (slot * nat)) (s : cstate) : cstate * option (list (slot * nat)) :=
  match l with
  | [] => (s, Some [])
  | (t, x) :: r =>
      match rec s x with
      | (s1, None) => (s1, None)
      | (s1, Some y) =>
          match copy_refs rec r s1 with
          | (s2, None) => (s2, None)
          | (s2, Some l') => (s2, Some ((t, y) :: l'))
          end
      end
  end.
(** The depth of the recursion is at most the number of instances. *)
Fixpoint dcopy (fuel : nat) (s : cstate) (x : nat) : cstate * option nat :=
  match fuel with
  | O => (s, None)
  | S f =>
    let '(g, m) := s in
    match recall x m with
    | Some y => (s, Some y)
    | None =>
      let i := inst_at g x in
      if copyable (i_kind i) then
        let '(g1, y) := alloc (i_kind i) (i_val i) [] g in
        match copy_refs (dcopy f) (i_refs i) (g1, (x, y) :: m) with
        | ((g2, m2), None) => ((g2, m2), None)
        | ((g2, m2), Some refs) => ((put_inst y (mkinst (i_kind i) (i_val i) refs) g2, m2), Some y)
        end
      else (s, None)
    end
  end.
Definition deep_copy (g : graph) (x : nat) : graph * option nat :=
  match dcopy (S (length g)) (g, []) x with
  | ((g', _), Some y) => (g', Some y)
  | (_, None) => (g, None)
  end.

(** ** The classes *)
Definition val_code (i : inst) : Z := hd 0 (i_val i).
(** Property(code, data), property.py:56-58. *)
Definition new_prop (code : Z) (data : list Z) (g : graph) : graph * nat := alloc KProp (code :: data) [] g.
(** Object(code), object.py:91-98. *)
Definition new_obj (code : Z) (g : graph) : graph * nat := alloc KObj [code] [] g.
(** SuperObject(code), super_object.py:27-29: it handles its own requests. *)
Definition new_super (code : Z) (g : graph) : graph * nat := let '(g, o) := new_obj code g in (point o SHandler o g, o).
(** Object.add_property, object.py:222-227. *)
Definition add_prop (o p : nat) (g : graph) : graph := point p SOwner o (point o (SPr (val_code (inst_at g p))) p g).
(** Node.add_object, node.py:52-57. *)
Definition add_obj (n o : nat) (g : graph) : graph := point o SNode n (point n (SObj (val_code (inst_at g o))) o g).
(** LocalNode(), local_node.py:31-36; the node profile has its own properties. *)
Definition new_node (k : kind) (g : graph) : graph * nat :=
  let '(g, n) := alloc k [] [] g in
  let '(g, m) := alloc KMgr [] [] g in
  let g := point n SMgr m g in
  let '(g, p) := new_super 0x0EF001 g in
  let g := point n SProfile p g in
  (add_obj n p g, n).
(** Controller(), controller.py:85-91. *)
Definition new_controller (g : graph) : graph * nat :=
  let '(g, n) := new_node KCtl g in
  let '(g, c) := alloc KCond [] [] g in
  (point n SCond c g, n).
(** "for prop in ...: obj.add_property(prop.copy())", object.py:442-443, super_object.py:41-43. *)
Fixpoint copy_into (o : nat) (l : list nat) (g : graph) : graph * bool :=
  match l with
  | [] => (g, true)
  | p :: r =>
      match deep_copy g p with
      | (g1, None) => (g1, false)
      | (g1, Some q) => copy_into o r (add_prop o q g1)
      end
  end.
Definition props_of (i : inst) : list nat := flat_map (fun p => match fst p with SPr _ => [snd p] | _ => [] end) (i_refs i).
(** Object.copy, object.py:438-444. *)
Definition copy_obj (o : nat) (g : graph) : graph * option nat :=
  let '(g1, c) := new_obj (val_code (inst_at g o)) g in
  match copy_into c (props_of (inst_at g o)) g1 with
  | (g2, true) => (g2, Some c)
  | (_, false) => (g, None)
  end.
(** StandardObject(code), std/object.py:24-47, for a class whose database object is [t]; the object of the super
    class is copied in the same way before. *)
Definition new_standard (code : Z) (t : nat) (g : graph) : graph * option nat :=
  let '(g1, c) := new_super code g in
  match copy_into c (props_of (inst_at g t)) g1 with
  | (g2, true) => (g2, Some c)
  | (_, false) => (g, None)
  end.
(** LocalNode.start and stop, local_node.py:66-76, manager.py:81-116: [k] servers that observe for the node. *)
Definition is_server (s : slot) : bool := match s with SServer _ => true | _ => false end.
Definition stop_node (n : nat) (g : graph) : graph :=
  match get_ref SMgr (i_refs (inst_at g n)) with
  | None => g
  | Some m => let i := inst_at g m in put_inst m (mkinst (i_kind i) (i_val i) (drop_refs is_server (i_refs i))) g
  end.
Fixpoint add_servers (k : nat) (n m : nat) (g : graph) : graph :=
  match k with
  | O => g
  | S k' => let '(g, s) := alloc KSrv [] [(SObserver 0, n)] g in add_servers k' n m (point m (SServer k') s g)
  end.
Definition start_node (k : nat) (n : nat) (g : graph) : graph :=
  let g := stop_node n g in
  match get_ref SMgr (i_refs (inst_at g n)) with
  | None => g
  | Some m => add_servers k n m g
  end.
(** A controller hears of a node, controller.py:290-293, 239-251, remote_node.py:30-33: a RemoteNode with an object
    for each of [ts], whose database objects these are. *)
Fixpoint add_found (n : nat) (ts : list (Z * nat)) (g : graph) : graph * bool :=
  match ts with
  | [] => (g, true)
  | (c, t) :: r =>
      match new_standard c t g with
      | (g1, None) => (g1, false)
      | (g1, Some o) => add_found n r (add_obj n o g1)
      end
  end.
Definition hear_node (c : nat) (ip : Z) (ts : list (Z * nat)) (g : graph) : graph * option nat :=
  let '(g1, n) := alloc KRemote [] [] g in
  match add_found n ts g1 with
  | (_, false) => (g, None)
  | (g2, true) => (point n SCtl c (point c (SFound ip) n g2), Some n)
  end.

(** ** Programs *)
Inductive ccmd : Type :=
| CNewProp (code : Z) (data : list Z) | CNewObj (code : Z) | CNewSuper (code : Z)
| CNewNode | CNewCtl | CNewUser (ok : bool)
| CAddProp (o p : nat) | CAddObj (n o : nat)
| CHandler (o u : nat) | CObserve (o : nat) (k : nat) (u : nat)
| CStart (k n : nat) | CStop (n : nat)
| CStandard (code : Z) (t : nat) | CHear (c : nat) (ip : Z) (ts : list (Z * nat))
| CCopyProp (p : nat) | CCopyObj (o : nat).
(** The answer of a command: a new instance, nothing, or TypeError. *)
Inductive canswer := CNew (x : nat) | CDone | CTypeError.
Definition made (x : graph * option nat) : graph * canswer :=
  match x with (g, Some y) => (g, CNew y) | (g, None) => (g, CTypeError) end.
(** Which kinds of instances a command is given (Python does not check most of it; other programs are not here). *)
Definition is_prop (k : kind) : bool := match k with KProp => true | _ => false end.
Definition is_obj (k : kind) : bool := match k with KObj => true | _ => false end.
Definition is_local (k : kind) : bool := match k with KNode | KCtl => true | _ => false end.
Definition is_ctl (k : kind) : bool := match k with KCtl => true | _ => false end.
Definition is_node (k : kind) : bool := match k with KNode | KCtl | KRemote => true | _ => false end.
Definition is_user (k : kind) : bool := match k with KUser _ => true | _ => false end.
Definition is (f : kind -> bool) (g : graph) (x : nat) : bool := (x <? length g)%nat && f (i_kind (inst_at g x)).
Definition cstep (g : graph) (c : ccmd) : graph * canswer :=
  let given (b : bool) (x : graph * canswer) := if b then x else (g, CDone) in
  let fresh (x : graph * nat) := (fst x, CNew (snd x)) in
  match c with
  | CNewProp code data => fresh (new_prop code data g)
  | CNewObj code => fresh (new_obj code g)
  | CNewSuper code => fresh (new_super code g)
  | CNewNode => fresh (new_node KNode g)
  | CNewCtl => fresh (new_controller g)
  | CNewUser ok => fresh (alloc (KUser ok) [] [] g)
  | CAddProp o p => given (is is_obj g o && is is_prop g p) (add_prop o p g, CDone)
  | CAddObj n o => given (is is_node g n && is is_obj g o) (add_obj n o g, CDone)
  | CHandler o u => given (is is_obj g o && (is is_user g u || is is_obj g u)) (point o SHandler u g, CDone)
  | CObserve o k u => given (is is_obj g o && is is_user g u) (point o (SObserver k) u g, CDone)
  | CStart k n => given (is is_local g n) (start_node k n g, CDone)
  | CStop n => given (is is_local g n) (stop_node n g, CDone)
  | CStandard code t => given (is is_obj g t) (made (new_standard code t g))
  | CHear c ip ts => given (is is_ctl g c && forallb (fun p => is is_obj g (snd p)) ts) (made (hear_node c ip ts g))
  | CCopyProp p => given (is is_prop g p) (made (deep_copy g p))
  | CCopyObj o => given (is is_obj g o) (made (copy_obj o g))
  end.
Fixpoint crun (g : graph) (l : list ccmd) : graph * list canswer :=
  match l with
  | [] => (g, [])
  | c :: r => let '(g1, a) := cstep g c in let '(g2, al) := crun g1 r in (g2, a :: al)
  end.
