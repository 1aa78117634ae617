(** Specifications for the controller of the documentation (C122). *)
From Verif Require Import PyBase MsgM PropM ObjM SpecHex SpecLog SpecReq SpecOut NodeM LocalM CtrlM SpecEnd SpecSess.

(** The lines about nodes with the given addresses and objects: for each node one with its number and
    address, then one for each of its objects. *)
Definition object_row (jc : nat * Z) (t : string) : Prop :=
  exists x, hex_number 6 (snd jc) x /\ t = ("[" ++ number (fst jc) ++ "] " ++ x ++ " ")%string.
Definition node_rows (k : nat * (string * list Z)) (ls : list string) : Prop :=
  exists us, ls = ("[" ++ number (fst k) ++ "] " ++ fst (snd k))%string :: us /\ Forall2 object_row (numbered (snd (snd k))) us.
Definition listing (ns : list (string * list Z)) (ls : list string) : Prop :=
  exists blocks, Forall2 node_rows (numbered ns) blocks /\ ls = concat blocks.

(** The lines about an answer: its service code, then one for each property. *)
Definition answer_rows (esv : Z) (ps : list prop) (ls : list string) : Prop :=
  exists e us, hex_number 2 esv e /\
  Forall2 (fun p t => exists c h, hex_number 2 (p_code p) c /\ hex_bytes (p_data p) h /\ t = (c ++ " " ++ h ++ " ")%string) ps us /\ ls = e :: us.

(** The first node that the controller has found is the one at [an]. *)
Definition first_found (s : lnode) (an : addr) : Prop :=
  exists c n r, ln_ctl s = Some c /\ map snd (c_found c) = n :: r /\ dest_addr (DNode n) = Some an.
(** What writing [d] to property [c] of object [code] prints. *)
Definition printed (T : store) (code c : Z) (d : list Z) (ls : list string) : Prop :=
  match T code with
  | None => ls = []
  | Some t =>
      match t c with
      | Some l => if cl_write l then ls = [] else answer_rows 0x50 [mkprop c d] ls
      | None => answer_rows 0x50 [mkprop c []] ls
      end
  end.
(** The contents afterwards. *)
Definition stored (T : store) (code c : Z) (d : list Z) : store := fun i =>
  match T i with
  | None => None
  | Some t => Some (fun k =>
      match t k with
      | None => None
      | Some l => Some (if (i =? code) && (k =? c) && cl_write l then mkcell d (cl_read l) true else l)
      end)
  end.
(** A property that fits a frame. *)
Definition small_write (code c : Z) (d : list Z) : Prop :=
  0 <= code < 2 ^ 24 /\ 0 <= c < 256 /\ Forall (fun b => 0 <= b < 256) d /\ zlen d <= 255.
