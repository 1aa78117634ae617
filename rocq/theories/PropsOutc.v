(** The exact outcomes of C36, C44, C50, C61 and C62, also where the claims are false. *)
From Verif Require Import PyBase BytesM MsgM PropM ObjM DbData DbM NodeM LocalM CtrlM
  SpecWire SpecObj SpecReq SpecDb SpecNode SpecProf SpecLocal SpecCtrl SpecEnd SpecNet SpecLife SpecSelf SpecOutc
  MapP NodeP ProfP AnswerP CtrlP OutcP.

(** C36: the counts and lists of the node profile, for every life of a node. *)
Theorem C36_exact : forall (PS : PySet) c r s0 w l s tr, new_local c r = (s0, Ok tt) -> turns w (s0, []) l (s, tr) ->
  let objects := firsts Z.eqb (0x0EF001 :: l) in
  let devices := device_codes (firsts Z.eqb l) in
  profile_data 0xD4 s = Some (be 2 (zlen objects)) /\
  profile_data 0xD7 s = Some (zlen objects mod 256 :: class_bytes (classes devices)) /\
  profile_data 0xD5 s = Some (zlen devices mod 256 :: flat_map (be 3) devices) /\
  profile_data 0xD6 s = Some (zlen devices mod 256 :: flat_map (be 3) devices).
Proof. exact L_C36_exact. Qed.
Print Assumptions C36_exact.
(** Two lights and a thermometer: four objects of three classes. *)
Example C36_exact_ex : forall r, exists s0, @new_local pyset_nodup false r = (s0, Ok tt) /\
  let dev c := mkobj c "" [] HSuper 0 [] CObject in
  let x := fold_left (fun x o => @act_step pyset_nodup good_os x (AAdd (Some o))) [dev 0x029101; dev 0x029102; dev 0x001101] (s0, []) in
  profile_data 0xD4 (fst x) = Some [0; 4] /\ profile_data 0xD7 (fst x) = Some [4; 2; 0x91; 0; 0x11].
Proof. intros [id]. eexists. split; [vm_compute; reflexivity|]. vm_compute. split; reflexivity. Qed.

(** C44: a start that raises leaves the servers made before it running, without observers. *)
Theorem C44_raised : forall w tr s l s' tr' e, local_start w tr s l = (s', tr', Err e) ->
  let ifs := non_loopback (reported (os_netif w (snd (fst (local_stop tr s))))) in
  exists done i rest uni tr1, ifs = done ++ i :: rest /\ os_bind w tr1 uni i = Err e /\ tr' = tr1 ++ [EvBind uni i (Err e)] /\
    g_servers (ln_mgr s') = left_behind done i uni /\ ln_node s' = ln_node s.
Proof. exact L_C44_raised. Qed.
Print Assumptions C44_raised.
(** C44: with free ports a start returns whether there is an interface. *)
Theorem C44_starts : forall w tr s l s' tr' r, free_ports w -> local_start w tr s l = (s', tr', r) ->
  (r = Ok true <-> non_loopback (reported (os_netif w (snd (fst (local_stop tr s))))) <> []) /\ (r = Ok true \/ r = Ok false).
Proof. exact L_C44_starts. Qed.
Print Assumptions C44_starts.
(** Two interfaces; the multicast socket of the second one cannot be bound. *)
Definition ex_half : os :=
  mkos (fun _ => [Some [Some "10.0.0.1"; Some "127.0.0.1"]; Some [Some "10.0.0.2"; None; Some "10.0.0.3"]]%string)
    (fun _ u i => if u || negb (String.eqb i "10.0.0.2") then Ok tt else Err OSError)
    (fun _ _ b _ => Ok (zlen b)) (fun _ s => Ok s) (fun _ _ => Ok tt).
Example C44_raised_ex : exists s' tr', local_start ex_half [] (mkln (mknode None []) InTable 1 new_manager None) [] = (s', tr', Err OSError) /\
  map (fun v => (s_uni v, s_if v, s_obs v)) (g_servers (ln_mgr s')) = [(true, "10.0.0.1", []); (false, "10.0.0.1", []); (true, "10.0.0.2", [])]%string.
Proof. eexists _, _. split; vm_compute; reflexivity. Qed.

(** C62: which messages raise in a node with the built-in handlers, for every history. *)
Theorem C62_exact : forall (PS : PySet) w ms tr s s' tr' rs, quiet w -> no_raise w -> ln_ctl s = None -> fitting_node s ->
  Forall (fun m => exists a, received_from a m) ms -> received_all w tr s ms = (s', tr', rs) ->
  rs = map (outcome s) ms /\ fitting_node s'.
Proof. exact L_C62_exact. Qed.
Print Assumptions C62_exact.
(** C62: and what is left when one does: the writes are done, nothing is sent. *)
Theorem C62_raised : forall (PS : PySet) w tr s a m s' tr' r, quiet w -> fitting_node s -> received_from a m -> names_unknown s m = true ->
  node_received w tr s m = (s', tr', r) ->
  r = Err AttributeError /\ sent (since tr tr') = [] /\
  exists o o', zget (m_DEOJ m) (ln_objs s) = Some o /\ zget (m_DEOJ m) (ln_objs s') = Some o' /\ written o (m_sets m) o' /\
    forall k, k <> m_DEOJ m -> zget k (ln_objs s') = zget k (ln_objs s).
Proof. exact L_C62_raised. Qed.
Print Assumptions C62_raised.
Definition ex_lamps : lnode :=
  mkln (mknode None [(0x029101, mkobj 0x029101 "" [(0x80, mkoprop 0x80 [0x30] 1 1 1)] HSuper 0 [] CObject)]) InTable 1 new_manager None.
Definition ex_wr (deoj c g : Z) : msg :=
  set_from (Some ("10.0.0.9"%string, 3610)) (mkmsg 4 0x05FF01 deoj 0x6E [] [mkprop 0x80 [c]] [mkprop 0x80 []; mkprop g []] None None).
Example C62_exact_ex : let '(s', tr', rs) := @received_all pyset_nodup good_os [] ex_lamps [ex_wr 0x029101 0x31 0xE7; ex_wr 0x029102 0x31 0xE7; ex_wr 0x029101 0x32 0x80] in
  rs = [Err AttributeError; Ok tt; Ok tt] /\ rs = map (outcome ex_lamps) [ex_wr 0x029101 0x31 0xE7; ex_wr 0x029102 0x31 0xE7; ex_wr 0x029101 0x32 0x80].
Proof. vm_compute. split; reflexivity. Qed.
Example C62_raised_ex : names_unknown ex_lamps (ex_wr 0x029101 0x31 0xE7) = true /\ received_from ("10.0.0.9"%string, 3610) (ex_wr 0x029101 0x31 0xE7) /\ fitting_node ex_lamps /\
  exists s' tr' o, @node_received pyset_nodup good_os [] ex_lamps (ex_wr 0x029101 0x31 0xE7) = (s', tr', Err AttributeError) /\
    zget 0x029101 (ln_objs s') = Some o /\ get_property_data 0x80 o = Some [0x31].
Proof.
  split; [reflexivity|]. split; [|split].
  - eexists. split; [|reflexivity]. split; [|split; [|reflexivity]].
    + split; [unfold byte_ok; cbn; lia|]. cbn. repeat split; cbn; try lia; repeat constructor; cbn; lia.
    + repeat constructor; unfold byte_ok; lia.
  - intros k o E. change (ln_objs ex_lamps) with [(0x029101, mkobj 0x029101 "" [(0x80, mkoprop 0x80 [0x30] 1 1 1)] HSuper 0 [] CObject)] in E. cbn [dget] in E.
    destruct (k =? 0x029101); [injection E as <-|discriminate]. split; [now left|]. split.
    + intros c p G. unfold get_property in G. cbn [o_props dget] in G. destruct (Z.eqb_spec c 0x80) as [Ec|]; [injection G as <-; subst c; reflexivity|discriminate].
    + intros c p G. unfold get_property in G. cbn [o_props dget] in G. destruct (Z.eqb_spec c 0x80); [injection G as <-; cbn; lia|discriminate].
  - eexists _, _, _. split; [vm_compute; reflexivity|]. split; vm_compute; reflexivity.
Qed.

(** C50: the same for a controller. *)
Theorem C50_exact : forall (PS : PySet) w tr s c a m s' tr' r, quiet w -> no_raise w -> ln_ctl s = Some c ->
  fitting_node s -> received_from a m -> node_received w tr s m = (s', tr', r) ->
  forall e, r = Err e <-> raises c m e \/ (e = AttributeError /\ names_unknown s m = true).
Proof. exact L_C50_exact. Qed.
Print Assumptions C50_exact.
Example C50_exact_ex : exists s' tr', @node_received pyset_nodup good_os [] (mkln (ln_node ex_lamps) InTable 1 new_manager (Some new_ctl)) (ex_wr 0x029101 0x31 0xE7) = (s', tr', Err AttributeError).
Proof. eexists _, _. vm_compute. reflexivity. Qed.

(** C61: get_node with a string. *)
Theorem C61_exact : forall w tr c s, keyed c ->
  get_node w tr c (GAStr s) =
  match ctl_nodes c with
  | [] => Ok None
  | n :: _ => if String.eqb (node_ip n) s then Ok (Some n)
              else match os_resolve w tr s with
                   | Err e => Err e
                   | Ok ip => Ok (find_either s ip c)
                   end
  end.
Proof. exact L_C61_exact. Qed.
Print Assumptions C61_exact.
(** A name that resolves to the address of a later node than the one that has the name as address. *)
Example C61_exact_ex : let nd ip := mknode (Some (ip, 3610)) [] in
  let c := mkctl [("10.0.0.1", nd "10.0.0.1"); ("10.0.0.2", nd "10.0.0.2"); ("lamp", nd "lamp")]%string None None [] in
  let w := mkos (fun _ => []) (fun _ _ _ => Ok tt) (fun _ _ b _ => Ok (zlen b)) (fun _ s => if String.eqb s "lamp" then Ok "10.0.0.2"%string else Err OSError) (fun _ _ => Ok tt) in
  keyed c /\ get_node w [] c (GAStr "lamp") = Ok (Some (nd "10.0.0.2"%string)) /\ get_node w [] c (GAStr "10.0.0.1") = Ok (Some (nd "10.0.0.1"%string)) /\
  get_node w [] c (GAStr "10.0.0.2") = Err OSError.
Proof. split; [repeat constructor|]. vm_compute. repeat split. Qed.
