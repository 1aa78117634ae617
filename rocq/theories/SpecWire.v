(** Independent specification of the ECHONET Lite Format 1 frame layout
    (ECHONET Lite Specification Part II, 3.2).  Nothing here comes from the code
    except the record types [prop] and [msg] (the API data). *)
From Verif Require Import PyBase MsgM.

(** Big-endian digits and value, by definition of positional notation. *)
Fixpoint be (n : nat) (v : Z) : list Z :=
  match n with
  | O => []
  | S k => (v / 256 ^ Z.of_nat k) mod 256 :: be k v
  end.
Fixpoint be_val (l : list Z) : Z :=
  match l with
  | [] => 0
  | x :: r => x * 256 ^ Z.of_nat (length r) + be_val r
  end.

(** EPC PDC EDT *)
Definition wire_prop (p : prop) : list Z := p_code p :: zlen (p_data p) :: p_data p.
(** OPC (EPC PDC EDT)* *)
Definition wire_props (ps : list prop) : list Z := zlen ps :: flat_map wire_prop ps.

(** The services whose frame has a Set block and a Get block: SetGet, SetGet_Res, SetGet_SNA. *)
Definition two_blocks (esv : Z) : bool := (esv =? 0x6E) || (esv =? 0x7E) || (esv =? 0x5E).

(** EHD1 EHD2 TID SEOJ DEOJ ESV *)
Definition wire_header (m : msg) : list Z :=
  [0x10; 0x81] ++ be 2 (m_TID m) ++ be 3 (m_SEOJ m) ++ be 3 (m_DEOJ m) ++ [m_ESV m].
Definition wire_body (m : msg) : list Z :=
  if two_blocks (m_ESV m) then wire_props (m_sets m) ++ wire_props (m_gets m)
  else wire_props (m_props m).
Definition wire (m : msg) : list Z := wire_header m ++ wire_body m.

(** A property / list / message whose numbers fit their one-byte fields. *)
Definition fits_prop (p : prop) : Prop := byte_ok (p_code p) /\ zlen (p_data p) <= 255.
Definition fits_list (ps : list prop) : Prop := zlen ps <= 255 /\ Forall fits_prop ps.
Definition encodable (m : msg) : Prop :=
  byte_ok (m_ESV m) /\
  (if two_blocks (m_ESV m) then fits_list (m_sets m) /\ fits_list (m_gets m)
   else fits_list (m_props m)).

(** Property data is a byte string (guaranteed by Python's bytes type). *)
Definition data_ok (p : prop) : Prop := bytes_ok (p_data p).
Definition typed (m : msg) : Prop :=
  Forall data_ok (m_props m) /\ Forall data_ok (m_sets m) /\ Forall data_ok (m_gets m).

(** What a frame can carry of a message: the fields reduced to their widths, the lists the
    service carries, no addresses. *)
Definition carried (m : msg) : msg :=
  mkmsg (m_TID m mod 2 ^ 16) (m_SEOJ m mod 2 ^ 24) (m_DEOJ m mod 2 ^ 24) (m_ESV m)
    (if two_blocks (m_ESV m) then [] else m_props m)
    (if two_blocks (m_ESV m) then m_sets m else [])
    (if two_blocks (m_ESV m) then m_gets m else [])
    None None.

(** A message that a frame denotes: encodable, typed, in range, nothing else set. *)
Definition frame_msg (m : msg) : Prop :=
  encodable m /\ typed m /\ carried m = m.

(** "b begins with a complete frame denoting m". *)
Definition denotes (b : list Z) (m : msg) : Prop :=
  frame_msg m /\ exists tail, b = wire m ++ tail.

(** Frames cut exactly where the decoder must read a byte that the length checks of the
    code do not cover: after fewer than 12 bytes, just before a PDC, or before the second
    OPC. *)
Definition block_cut (r : list Z) : Prop :=
  exists n ps c, zlen ps < n /\ Forall fits_prop ps /\ r = n :: flat_map wire_prop ps ++ [c].
Definition index_cut (b : list Z) : Prop :=
  exists r, b = [0x10; 0x81] ++ r /\
  ((6 <= zlen r <= 9) \/
   (exists h esv body, r = h ++ [esv] ++ body /\ zlen h = 8 /\
      if two_blocks esv then
        block_cut body \/
        (exists sets, fits_list sets /\
           (body = wire_props sets \/
            exists body2, body = wire_props sets ++ body2 /\ block_cut body2))
      else block_cut body)).
