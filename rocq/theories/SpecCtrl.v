(** Specifications for controllers (C45-C50, C61, C65). *)
From Verif Require Import PyBase MsgM PropM ObjM DbM SpecWire SpecReq NodeM LocalM CtrlM SpecNode SpecLocal.

(** ** Instance lists *)
Fixpoint triples (l : list Z) : list Z :=
  match l with
  | a :: b :: c :: r => be_val [a; b; c] :: triples r
  | _ => []
  end.
(** The codes in the value of an instance list property: a count n and at least n codes of
    three bytes. *)
Definition instance_list (d : list Z) : option (list Z) :=
  match d with
  | [] => None
  | n :: r => if 3 * n <=? zlen r then Some (triples (firstn (3 * Z.to_nat n) r)) else None
  end.
Definition list_property (p : prop) : bool := (p_code p =? 0xD5) || (p_code p =? 0xD6).
(** ... in the first property of a message. *)
Definition carries_list (m : msg) : option (list Z) :=
  match m_props m with
  | p :: _ => if list_property p then instance_list (p_data p) else None
  | [] => None
  end.
(** A first property D5 or D6 without data. *)
Definition empty_list (m : msg) : bool :=
  match m_props m with
  | p :: _ => list_property p && match p_data p with [] => true | _ => false end
  | [] => false
  end.
(** A message by which a controller finds a node. *)
Definition announces (m : msg) : option (list Z) :=
  if ((m_ESV m =? 0x72) || (m_ESV m =? 0x73)) && (m_DEOJ m =? 0x0EF001) then carries_list m else None.

(** ** Recording data *)
Definition same_bytes (a b : list Z) : bool := if list_eq_dec Z.eq_dec a b then true else false.
(** The properties whose data changes, in message order; [f]: the data before. *)
Fixpoint changed (f : Z -> option (list Z)) (ps : list prop) : list prop :=
  match ps with
  | [] => []
  | p :: r =>
      match f (p_code p) with
      | None => changed f r
      | Some d => if same_bytes d (p_data p) then changed f r
                  else p :: changed (fun c => if c =? p_code p then Some (p_data p) else f c) r
      end
  end.
(** The last data given for a code. *)
Fixpoint last_data (c : Z) (ps : list prop) : option (list Z) :=
  match ps with
  | [] => None
  | p :: r => match last_data c r with
              | Some d => Some d
              | None => if p_code p =? c then Some (p_data p) else None
              end
  end.
(** [o'] is [o] with the data of [ps] in the properties it has. *)
Definition records (ps : list prop) (o o' : obj) : Prop :=
  o_code o' = o_code o /\ o_handler o' = o_handler o /\
  forall c, get_property c o' =
    match get_property c o with
    | None => None
    | Some q => Some (match last_data c ps with Some d => set_op_data d q | None => q end)
    end.

(** ** Histories of a controller *)
Definition from_ip (m : msg) : string := match m_from m with Some a => fst a | None => ""%string end.
(** The source IPs of the messages that announce a node. *)
Definition announcers (ms : list msg) : list string :=
  flat_map (fun m => match announces m with Some _ => [from_ip m] | None => [] end) ms.
(** The last list announced from an IP. *)
Fixpoint last_list (ip : string) (ms : list msg) : option (list Z) :=
  match ms with
  | [] => None
  | m :: r => match last_list ip r with
              | Some l => Some l
              | None => if String.eqb (from_ip m) ip then announces m else None
              end
  end.

(** ** The calls that listeners get, with what they can tell apart *)
Inductive lcall :=
| CNodeAdd (l : nat) (ip : string) | CNodeUpd (l : nat) (ip : string)
| CObjUpd (l : nat) (ip : string) (code : Z) | CPropUpd (l : nat) (ip : string) (code : Z) (p : prop).
Definition lcalls (evs : trace) : list lcall :=
  flat_map (fun e => match e with
    | EvNodeAdd l n => [CNodeAdd l (node_ip n)]
    | EvNodeUpd l n => [CNodeUpd l (node_ip n)]
    | EvObjUpd l n o => [CObjUpd l (node_ip n) (o_code o)]
    | EvPropUpd l n o p => [CPropUpd l (node_ip n) (o_code o) (mkprop (op_code p) (op_data p))]
    | _ => []
    end) evs.

(** The data of a property. *)
Definition data_at (o : obj) (c : Z) : option (list Z) := option_map op_data (get_property c o).

(** ** Exceptions
    What message_received raises: the message is a read response or notification not addressed
    to a node profile, one with an empty instance list, or comes from an unknown node. *)
Definition raises (c : ctl) (m : msg) (e : exn) : Prop :=
  match e with
  | AttributeError =>
      ((m_ESV m = 0x72 \/ m_ESV m = 0x73) /\ m_DEOJ m <> 0x0EF001) \/
      (((m_ESV m = 0x72 \/ m_ESV m = 0x73) /\ m_DEOJ m = 0x0EF001 /\ empty_list m = false \/ m_ESV m = 0x7E) /\
       announces m = None /\ sget (from_ip m) (c_found c) = None)
  | IndexError => (m_ESV m = 0x72 \/ m_ESV m = 0x73) /\ m_DEOJ m = 0x0EF001 /\ empty_list m = true
  | _ => False
  end.

(** ** Tables made by receiving messages: nodes under their IP, objects and properties under
    their codes. *)
Definition tidy (c : ctl) : Prop :=
  forall ip n, sget ip (c_found c) = Some n -> node_ip n = ip /\
  forall k o, zget k (n_objs n) = Some o -> o_code o = k /\ wf_obj o.
(** The listener calls for a message from [ip]: [ls] the listeners, [o] the node profile before
    the changes. *)
Definition change_calls (ls : list nat) (ip : string) (o : obj) (ps : list prop) : list lcall :=
  match changed (data_at o) ps with
  | [] => []
  | l => flat_map (fun p => map (fun x => CPropUpd x ip 0x0EF001 p) ls) l ++
         map (fun x => CObjUpd x ip 0x0EF001) ls ++ map (fun x => CNodeAdd x ip) ls
  end.
(** Every found node is stored under its IP. *)
Definition keyed (c : ctl) : Prop := Forall (fun e => node_ip (snd e) = fst e) (c_found c).
Definition find_ip (ip : string) (c : ctl) : option node :=
  find (fun n => String.eqb (node_ip n) ip) (ctl_nodes c).
(** The node profile whose data a response from [ip] changes: a fresh one if the message announces
    the node, otherwise that of the node found under [ip]. *)
Definition profile_before {PS : PySet} (c : ctl) (m : msg) : option obj :=
  match announces m with
  | Some _ => Some (fst (new_standard (PInt 0x0EF001)))
  | None => match sget (from_ip m) (c_found c) with Some n => get_object (PInt 0x0EF001) n | None => None end
  end.
(** The listener calls due for a message. *)
Definition calls_due {PS : PySet} (c : ctl) (m : msg) : list lcall :=
  if ((m_ESV m =? 0x72) || (m_ESV m =? 0x73)) && (m_DEOJ m =? 0x0EF001) && negb (empty_list m) then
    match announces m with Some _ => map (fun x => CNodeAdd x (from_ip m)) (c_listeners c) | None => [] end ++
    match profile_before c m with Some o => change_calls (c_listeners c) (from_ip m) o (m_props m) | None => [] end
  else [].

(** ** Requests made by objects *)
(** A one-block request from a controller. *)
Definition request_bytes (t code esv : Z) (ps : list prop) : list Z :=
  [0x10; 0x81] ++ be 2 t ++ [0x0E; 0xF0; 0x01] ++ be 3 code ++ [esv; zlen ps] ++
  flat_map (fun p => [p_code p; zlen (p_data p)] ++ p_data p) ps.
Definition pairs (ps : list prop) : props_arg := LList (map (fun p => PPair (p_code p) (p_data p)) ps).
Definition malformed (a : props_arg) : Prop := match a with LBad => True | LList l => In PBad l end.
(** The result of send_message and the attempts. *)
Definition send_outcome (r : res bool) (l : list send) : Prop :=
  match r with
  | Err e => exists x, In x l /\ snd x = Err e
  | Ok b => (forall x e, In x l -> snd x <> Err e) /\ (b = true <-> exists x, In x l /\ delivered x = true)
  end.
