(** Specification of requests through objects and properties (C121), read off the history of a program. *)
From Verif Require Import PyBase BytesM MsgM PropM ObjM NodeM LocalM CtrlM AddrM LinkM.
Local Open Scope nat_scope.

(** The numbers of properties, objects and nodes that were made. *)
Definition made (ops : list gop) : nat * nat * nat :=
  (length (filter (fun op => match op with GProp _ => true | _ => false end) ops),
   length (filter (fun op => match op with GObj _ => true | _ => false end) ops),
   length (filter (fun op => match op with GNode _ _ => true | _ => false end) ops)).
(** Only instances that exist are used. *)
Definition usable (before : list gop) (op : gop) : Prop :=
  let '(p, o, n) := made before in
  match op with
  | GAddProp i j => i < o /\ j < p
  | GAddObj i j => i < n /\ j < o
  | GSetCode i _ => i < o
  | GSetAddr i _ => i < n
  | GRegister _ i => i < n
  | _ => True
  end.
Definition proper (ops : list gop) : Prop := forall before op after, ops = before ++ op :: after -> usable before op.

(** The last of the answers [f] gives over the history; [f] also sees what came before. *)
Fixpoint latest {A} (f : list gop -> gop -> option A) (before ops : list gop) (acc : option A) : option A :=
  match ops with
  | [] => acc
  | op :: r => latest f (before ++ [op]) r (match f before op with Some x => Some x | None => acc end)
  end.
Definition over {A} (f : list gop -> gop -> option A) (ops : list gop) : option A := latest f [] ops None.
(** The code of a property and of an object, the object a property was last added to, the node an object was last added
    to, whether a node is a RemoteNode, the controller that found it, and the pair that is its address. *)
Definition prop_code (p : nat) := over (fun b op => match op with GProp c => if fst (fst (made b)) =? p then Some c else None | _ => None end).
Definition obj_code (o : nat) := over (fun b op => match op with GObj c => if snd (fst (made b)) =? o then Some c else None | GSetCode i c => if i =? o then Some c else None | _ => None end).
Definition object_of (p : nat) := over (fun _ op => match op with GAddProp o i => if i =? p then Some o else None | _ => None end).
Definition node_of (o : nat) := over (fun _ op => match op with GAddObj n i => if i =? o then Some n else None | _ => None end).
Definition is_remote (n : nat) := over (fun b op => match op with GNode r _ => if snd (made b) =? n then Some r else None | _ => None end).
Definition finder (n : nat) := over (fun _ op => match op with GRegister c i => if i =? n then Some c else None | _ => None end).
Definition address_of (n : nat) := over (fun b op => match op with
  | GNode _ v => if snd (made b) =? n then match v with VTuple [x; y] => Some (x, y) | _ => None end else None
  | GSetAddr i v => if i =? n then match v with VTuple [x; y] => Some (x, y) | _ => None end else None
  | _ => None end).

(** The message of a request to the object [code]. *)
Definition asks (code esv : Z) (l : list prop) : msg := mkmsg 0 0 code esv l [] [] None None.
(** Node [n] was found by controller [c] and has the address [a]. *)
Definition found_at (ops : list gop) (n c : nat) (a : list pyval) : Prop :=
  is_remote n ops = Some true /\ finder n ops = Some c /\ match address_of n ops with Some (x, y) => a = [x; y] | None => a = [] end.
(** No controller found [n]. *)
Definition not_found (ops : list gop) (n : nat) : Prop := is_remote n ops = Some false \/ finder n ops = None.
(** The node that controller [c] last found at host [h], by the address the node had then; a node without address
    is found at the empty host. *)
Definition registered (c : nat) (h : string) := over (fun b op => match op with
  | GRegister i n =>
      if i =? c then
        match is_remote n b, address_of n b with
        | Some true, Some (VStr h1, _) => if String.eqb h1 h then Some n else None
        | Some true, None => if String.eqb "" h then Some n else None
        | _, _ => None
        end
      else None
  | _ => None end).
