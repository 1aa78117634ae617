(** Vocabulary of C88: a controller that switches the example light. *)
From Verif Require Import PyBase MsgM PropM ObjM NodeM LocalM CtrlM SpecWire SpecReq SpecNode SpecCtrl SpecEnd SpecMono.

(** A light with a readable operation status of one byte. *)
Definition shining (h : handler) (y : Z) (o : obj) : Prop :=
  a_light h o /\ exists p, get_property 0x80 o = Some p /\ op_data p = [y] /\ can_read p = true.
(** Write requests for the operation status, one for each byte of the list, each after the answer
    to the one before; the answers. *)
Fixpoint switch_all {PS : PySet} (wc wd : os) (jc jd : nat) (ac an : addr) (d : dest) (xs : list Z) (x : world) : world * list (option msg) :=
  match xs with
  | [] => (x, [])
  | v :: r =>
      let '(x1, m) := transact wc wd jc jd ac an (write_request 0x029101 [mkprop 0x80 [v]]) d x in
      let '(x2, ms) := switch_all wc wd jc jd ac an d r x1 in (x2, m :: ms)
  end.
(** The service and the operation status of an answer. *)
Definition seen (m : option msg) : option (Z * list prop) := option_map (fun m => (m_ESV m, m_props m)) m.
