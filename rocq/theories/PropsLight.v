(** Properties C72 (answers) and C88: the example light over the network. *)
From Verif Require Import PyBase BytesM EsvM MsgM PropM ObjM DbData DbM NodeM LocalM CtrlM
  SpecWire SpecObj SpecReq SpecNode SpecProf SpecLocal SpecSrv SpecCtrl SpecEnd MapP NodeP LocalP AnswerP CtrlP EndP MonoM SpecMono MonoP SpecLight LightP.
From Verif Require Import SpecReq.

(** C72: what the light answers. *)
Theorem C72_read : forall o m, a_light mono_handler o -> plain m -> m_ESV m = 0x62 -> exists o',
  obj_message_received o m = (o', o_obs o, Ok (Some (mkmsg (m_TID m) (m_DEOJ m) (m_SEOJ m)
    (if all_accepted (read_answer o) (m_props m) then 0x72 else 0x52) (answers (read_answer o) (m_props m)) [] [] None None))) /\
  a_light mono_handler o' /\ forall c, get_property c o' = get_property c o.
Proof. exact L_C72_read. Qed.
Print Assumptions C72_read.
Theorem C72_write : forall o m v y, a_light mono_handler o -> status o = Some [y] ->
  m_ESV m = 0x61 -> m_props m = [mkprop 0x80 [v]] -> m_sets m = [] -> m_gets m = [] -> exists o',
  obj_message_received o m = (o', o_obs o, Ok (Some (mkmsg (m_TID m) (m_DEOJ m) (m_SEOJ m)
    (if on_offb v then 0x71 else 0x50) [mkprop 0x80 (if on_offb v then [] else [v])] [] [] None None))) /\
  a_light mono_handler o' /\ status o' = Some [if on_offb v then v else y] /\
  forall c, option_map (set_op_data []) (get_property c o') = option_map (set_op_data []) (get_property c o).
Proof. exact L_C72_write. Qed.
Print Assumptions C72_write.
Definition tx_light (d : list Z) : obj := mkobj 0x029101 "Mono functional lighting" [(0x80, mkoprop 0x80 d 1 1 1); (0xB0, mkoprop 0xB0 [0x42] 0 2 0)] mono_handler 0 [] CObject.
Lemma tx_ok d : a_light mono_handler (tx_light d).
Proof.
  split; [reflexivity|]. intros c p. unfold get_property. cbn [tx_light o_props dget]. destruct (Z.eqb_spec c 0x80) as [->|]; [intros [= <-]; reflexivity|].
  destruct (Z.eqb_spec c 0xB0) as [->|]; [intros [= <-]; reflexivity|discriminate].
Qed.
Definition tx_ask (e : Z) (l : list prop) : msg := mkmsg 7 0x05FF01 0x029101 e l [] [] None None.
Example C72_answers_ex : plain (tx_ask 0x62 [mkprop 0x80 []; mkprop 0xB0 []]) /\
  snd (obj_message_received (tx_light [0x31]) (tx_ask 0x62 [mkprop 0x80 []])) = Ok (Some (mkmsg 7 0x029101 0x05FF01 0x72 [mkprop 0x80 [0x31]] [] [] None None)) /\
  snd (obj_message_received (tx_light [0x31]) (tx_ask 0x62 [mkprop 0x80 []; mkprop 0xB0 []])) = Ok (Some (mkmsg 7 0x029101 0x05FF01 0x52 [mkprop 0x80 [0x31]; mkprop 0xB0 []] [] [] None None)) /\
  snd (obj_message_received (tx_light [0x31]) (tx_ask 0x61 [mkprop 0x80 [0x32]])) = Ok (Some (mkmsg 7 0x029101 0x05FF01 0x50 [mkprop 0x80 [0x32]] [] [] None None)).
Proof. repeat split. Qed.

(** C88: switching the light from a controller. *)
Theorem C88_switch : forall (PS : PySet) wc wd jc jd ac an d xs o y x,
  quiet wc -> reliable wc -> quiet wd -> reliable wd -> dest_addr d = Some an ->
  linked jc jd an 0x029101 o x -> shining mono_handler y o -> on_off y -> Forall byte_ok xs ->
  exists x1 ms o1 x2 m,
  switch_all wc wd jc jd ac an d xs x = (x1, ms) /\
  (* every request is answered: accepted exactly for on and off *)
  map seen ms = map (fun v => Some (if on_offb v then (0x71, [mkprop 0x80 []]) else (0x50, [mkprop 0x80 [v]]))) xs /\
  (* the light is in the last accepted state, and says so *)
  linked jc jd an 0x029101 o1 x1 /\ shining mono_handler (last (filter on_offb xs) y) o1 /\
  transact wc wd jc jd ac an (read_request 0x029101 [0x80]) d x1 = (x2, Some m) /\
  m_ESV m = 0x72 /\ m_SEOJ m = 0x029101 /\ m_props m = [mkprop 0x80 [last (filter on_offb xs) y]] /\ m_from m = Some an /\
  (* nothing else has changed in the device *)
  forall k, k <> 0x029101 -> zget k (ln_objs (x_dev x2)) = zget k (ln_objs (x_dev x)).
Proof. exact L_C88_switch. Qed.
Print Assumptions C88_switch.
Theorem C88_started : forall (PS : PySet) r w tr s s' tr' b, new_mono_node r = (s, Ok true) -> mono_start w tr s = (s', tr', b) ->
  exists o, zget 0x029101 (ln_objs s') = Some o /\ shining mono_handler 0x30 o.
Proof. exact L_C88_started. Qed.
Print Assumptions C88_started.
Definition tx_node : lnode := fst (fst (local_start good_os [] (mkln (mknode None [(0x029101, tx_light [0x30])]) InTable 1 new_manager None) [])).
Definition tx_world : world := mkworld finder [] tx_node [].
(** Off, a refused value, off, on, two refused values. *)
Definition tx_values : list Z := [0x31; 0x00; 0x31; 0x30; 0x32; 0xFF].
Example C88_premises : linked 2 2 dev_addr 0x029101 (tx_light [0x30]) tx_world /\ shining mono_handler 0x30 (tx_light [0x30]) /\ Forall byte_ok tx_values.
Proof.
  assert (O : online finder 2 /\ online tx_node 2).
  { split; (split; [vm_compute; discriminate|eexists; split; [vm_compute; reflexivity|split; reflexivity]]). }
  split; [|split].
  - split; [apply O|]. split; [do 2 eexists; split; vm_compute; reflexivity|]. split; [vm_compute; split; discriminate|].
    split; [apply O|]. split; vm_compute; reflexivity.
  - split; [apply tx_ok|]. eexists. repeat split; reflexivity.
  - repeat constructor; discriminate.
Qed.
Example C88_ex : let '(x1, ms) := @switch_all pyset_nodup good_os good_os 2 2 ctl_addr dev_addr (DNode (mknode (Some dev_addr) [])) tx_values tx_world in
  map seen ms = [Some (0x71, [mkprop 0x80 []]); Some (0x50, [mkprop 0x80 [0]]); Some (0x71, [mkprop 0x80 []]); Some (0x71, [mkprop 0x80 []]);
                 Some (0x50, [mkprop 0x80 [0x32]]); Some (0x50, [mkprop 0x80 [0xFF]])] /\
  option_map m_props (snd (@transact pyset_nodup good_os good_os 2 2 ctl_addr dev_addr (read_request 0x029101 [0x80]) (DNode (mknode (Some dev_addr) [])) x1)) = Some [mkprop 0x80 [0x30]].
Proof. vm_compute. split; reflexivity. Qed.
