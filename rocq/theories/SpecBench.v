(** Specification of what uechobench.py and uechosearch.py show of a node (C81). *)
From Verif Require Import PyBase MsgM PropM ObjM SpecWire SpecReq NodeM LocalM CtrlM SpecNode SpecLocal SpecSrv SpecCtrl SpecEnd SpecSess BenchM.
From Verif Require Import SpecReq.

(** The mandatory readable properties of a list of objects, as pairs of an object and a property code. *)
Definition mandatory (os : list obj) : list (Z * Z) :=
  flat_map (fun o => map (fun p => (o_code o, op_code p)) (filter (fun p => op_get p =? 1) (dvals (o_props o)))) os.
(** What is to be shown of property [k] of object [code]: the device's data, if the device has the
    object; no data if it does not have the property or does not let it be read. *)
Definition on_screen (S : store) (code k : Z) : list (list Z) :=
  match S code with Some t => [p_data (show t k)] | None => [] end.
