(** Exact forms of C17, C57 and C67: what the code does in the cases their other theorems leave out. *)
From Verif Require Import PyBase BytesM MsgM PropM ObjM DbData DbM NodeM LocalM CtrlM SpecWire SpecObj SpecMap SpecDb SpecReq SpecNode SpecLocal SpecSrv SpecCtrl SpecEnd SpecSess SpecExact
  MapP DbP NodeP CtrlP AnswerP EndP SessP ExactP PropsSess.
From Verif Require Import SpecReq.

(** C17: any format 2 map of the right length.  Only the low four bits of the bytes are looked at, and the list is cut to the announced number or filled with zeros. *)
Theorem C17_exact : forall cnt bm, 16 <= cnt -> length bm = 16%nat ->
  property_map_codes (cnt :: bm) =
  MapCodes (firstn (Z.to_nat cnt) (low_codes bm) ++ repeat 0 (Z.to_nat cnt - length (low_codes bm))).
Proof. exact L_C17_exact. Qed.
Print Assumptions C17_exact.
Example C17_exact_ex : property_map_codes [17; 0x01; 0x13; 0; 0; 0; 0; 0; 0; 0; 0; 0; 0; 0; 0; 0; 0x80] =
  MapCodes ([0x80; 0x81; 0x91] ++ repeat 0 14).
Proof. vm_compute. reflexivity. Qed.

(** C57: exactly which access rules the properties of a new object have. *)
Theorem C57_exact : forall (PS : PySet) a code x r, set_code 0 a = (code, true) ->
  row_for x (object_rows (group_of code) (class_of code)) = Some r ->
  let '(g, s, n) := snd r in
  exists o p, new_standard a = (o, Ok tt) /\ get_property x o = Some p /\
    (is_read_enabled p = true <-> marked_plainly g) /\ (is_read_required p = true <-> demanded g) /\
    (is_write_enabled p = true <-> marked_plainly s) /\ (is_write_required p = true <-> demanded s) /\
    (is_announce_enabled p = true <-> marked_plainly n) /\ (is_announce_required p = true <-> demanded n).
Proof. exact L_C57_exact. Qed.
Print Assumptions C57_exact.
Example C57_exact_ex : row_for 0xE0 (object_rows 0 0xD0) = Some (0xE0, (r_rc, r_na, r_o)) /\
  ~ marked_plainly r_rc /\ ~ demanded r_o /\ marked_plainly r_o.
Proof. vm_compute. repeat split; try (intros H; repeat destruct H as [H|H]; discriminate H || exact H). tauto. Qed.

(** C67: finding.  After a write-read of a property the object does not have the device answers no call any more, whatever it is.  The writes of that call are done. *)
Theorem C67_unknown_refuted : forall (PS : PySet) wc wd jc jd ac an d x (S : store) code t ps cs l,
  quiet wc -> reliable wc -> quiet wd -> dest_addr d = Some an -> joined jc jd an x -> mirrors (x_dev x) S -> S code = Some t ->
  let k := KWriteRead ps cs in
  0 <= code < 2 ^ 24 -> encodable (request code k) -> Forall data_ok ps -> (length (wire (request code k)) <= 1024)%nat ->
  (exists c, In c cs /\ t c = None) ->
  exists x', client wc wd jc jd ac an d ((code, k) :: l) x = (x', None :: map (fun _ => None) l) /\
  mirrors (x_dev x') (store_after S code k).
Proof. exact L_C67_unknown_refuted. Qed.
Print Assumptions C67_unknown_refuted.
(** The same read before and after: the store would answer both. *)
Definition sx_fatal : list (Z * call) :=
  [(0x029101, KRead [0x80]); (0x029101, KWriteRead [mkprop 0x80 [0x31]] [0x80; 0x99]); (0x029101, KRead [0x80]); (0x028801, KRead [0xE0])].
Example C67_unknown_ex :
  map (option_map m_ESV) (snd (@client pyset_nodup good_os good_os 2 2 ctl_addr dev_addr (DNode (mknode (Some dev_addr) [])) sx_fatal sx_world)) = [Some 0x72; None; None; None] /\
  map (option_map m_ESV) (replies dev_addr 1 sx_store sx_fatal) = [Some 0x72; Some 0x5E; Some 0x72; Some 0x72].
Proof. split; vm_compute; reflexivity. Qed.
