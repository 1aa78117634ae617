(** Properties C89-C91: a node used by several threads. *)
From Verif Require Import PyBase EsvM MsgM PropM ObjM DbM TidM SpecWire SpecObj SpecReq NodeM LocalM SpecNode SpecProf
  ServeM SpecServe RunM SpecRun MapP RunP.
Local Open Scope nat_scope.

(** C89: what an object does and answers depends on the requests to it only. *)
Theorem C89_object : forall (PS : PySet) h tab prof reqs sched i o, table_ok h tab -> nth_error h i = Some o ->
  nth_error (r_heap (rrun (asking h tab prof reqs) sched)) i = Some (v_obj (vrun (serving o reqs) (filter (goes_to tab reqs i) sched))).
Proof. exact L_C89_object. Qed.
Print Assumptions C89_object.
Theorem C89_thread : forall (PS : PySet) h tab prof reqs sched t m i o, table_ok h tab -> nth_error reqs t = Some m ->
  zget (m_DEOJ m) tab = Some i -> nth_error h i = Some o -> In t sched ->
  exists p, nth_error (v_pcs (vrun (serving o reqs) (filter (goes_to tab reqs i) sched))) t = Some p /\
    nth_error (r_thr (rrun (asking h tab prof reqs) sched)) t = Some (TServe i p).
Proof. exact L_C89_thread. Qed.
Print Assumptions C89_thread.
Theorem C89_unknown : forall (PS : PySet) h tab prof reqs sched t m, table_ok h tab -> nth_error reqs t = Some m -> zget (m_DEOJ m) tab = None -> In t sched ->
  nth_error (r_thr (rrun (asking h tab prof reqs) sched)) t = Some TNone.
Proof. exact L_C89_unknown. Qed.
Print Assumptions C89_unknown.
Theorem C89_ends : forall (PS : PySet) h tab prof reqs sched t m, table_ok h tab -> nth_error reqs t = Some m ->
  3 + length (m_props m) + length (m_sets m) + length (m_gets m) <= steps_of t sched ->
  match zget (m_DEOJ m) tab with
  | None => nth_error (r_thr (rrun (asking h tab prof reqs) sched)) t = Some TNone
  | Some i => exists r, nth_error (r_thr (rrun (asking h tab prof reqs) sched)) t = Some (TServe i (SDone r))
  end.
Proof. exact L_C89_ends. Qed.
Print Assumptions C89_ends.
Theorem C89_alone : forall (PS : PySet) h tab prof reqs sched t m i o r, table_ok h tab -> nth_error reqs t = Some m ->
  zget (m_DEOJ m) tab = Some i -> nth_error h i = Some o ->
  (forall u m', nth_error reqs u = Some m' -> u <> t -> zget (m_DEOJ m') tab <> Some i) ->
  nth_error (r_thr (rrun (asking h tab prof reqs) sched)) t = Some (TServe i (SDone r)) ->
  r = snd (obj_message_received o m) /\
  nth_error (r_heap (rrun (asking h tab prof reqs) sched)) i = Some (fst (fst (obj_message_received o m))).
Proof. exact L_C89_alone. Qed.
Print Assumptions C89_alone.
Definition jx_light (c d : Z) : obj := mkobj c "" [(0x80%Z, mkoprop 0x80 [d] 1 1 1); (0xB0%Z, mkoprop 0xB0 [1%Z] 1 1 0)] HSuper 0 [] CObject.
Definition jx_h : list obj := [jx_light 0x029101 0x30; jx_light 0x029102 0x31].
Definition jx_tab : list (Z * nat) := [(0x029101%Z, 0); (0x029102%Z, 1)].
Definition jx_req (t d e : Z) (ps : list prop) : msg := mkmsg t 0x05FF01 d e ps [] [] None None.
Definition jx_reqs : list msg :=
  [jx_req 1 0x029101 0x61 [mkprop 0x80 [0x41%Z]; mkprop 0xB0 [2%Z]]; jx_req 2 0x029102 0x62 [mkprop 0x80 []; mkprop 0xB0 []];
   jx_req 3 0x029102 0x61 [mkprop 0xB0 [7%Z]]; jx_req 4 0x029109 0x62 [mkprop 0x80 []]].
Definition jx_turns : list nat := [0; 1; 0; 2; 3; 1; 2; 0; 1; 0; 2; 1].
Example C89_ex :
  table_ok jx_h jx_tab /\ filter (goes_to jx_tab jx_reqs 1) jx_turns = [1; 2; 1; 2; 1; 2; 1] /\
  let s := @rrun pyset_nodup (asking jx_h jx_tab 0 jx_reqs) jx_turns in
  map (fun o => option_map op_data (get_property 0xB0 o)) (r_heap s) = [Some [2%Z]; Some [7%Z]] /\
  nth_error (r_thr s) 0 = Some (TServe 0 (SDone (Ok (Some (mkmsg 1 0x029101 0x05FF01 0x71 [mkprop 0x80 []; mkprop 0xB0 []] [] [] None None))))) /\
  nth_error (r_thr s) 1 = Some (TServe 1 (SDone (Ok (Some (mkmsg 2 0x029102 0x05FF01 0x72 [mkprop 0x80 [0x31%Z]; mkprop 0xB0 [7%Z]] [] [] None None))))) /\
  nth_error (r_thr s) 3 = Some TNone.
Proof.
  split; [|vm_compute; repeat split]. intros c i. cbn [jx_tab dget]. destruct (c =? 0x029101)%Z; [intros E; assert (i = 0) by congruence; subst; cbn; lia|].
  destruct (c =? 0x029102)%Z; [intros E; assert (i = 1) by congruence; subst; cbn; lia|discriminate].
Qed.

(** C90: one thread adds objects and sets data while requests are answered. *)
Theorem C90_values : forall (PS : PySet) c r s0 ops devs calls reqs sched code, new_local c r = (s0, Ok tt) -> no_profile ops ->
  let ln := fst (local_adds ops s0) in Forall (legal (node_heap ln devs)) calls -> In code five ->
  let s := rrun (running ln devs calls reqs) sched in
  exists b, returned s <= b <= begun calls s /\ live_data code s = planned code ln devs (firstn b calls).
Proof. exact L_C90_values. Qed.
Print Assumptions C90_values.
Theorem C90_answers : forall (PS : PySet) c r s0 ops devs calls reqs s1 s2 t m i x, new_local c r = (s0, Ok tt) -> no_profile ops ->
  let ln := fst (local_adds ops s0) in Forall (legal (node_heap ln devs)) calls ->
  nth_error reqs t = Some m -> m_ESV m = 0x62%Z -> m_DEOJ m = 0x0EF001%Z -> ~ In (S t) s1 ->
  let a := rrun (running ln devs calls reqs) s1 in let z := rrun a s2 in
  nth_error (r_thr z) (S t) = Some (TServe i (SDone x)) ->
  exists ans, x = Ok (Some ans) /\ m_TID ans = m_TID m /\ m_DEOJ ans = m_SEOJ m /\ map p_code (m_props ans) = map p_code (m_props m) /\
  forall p, In p (m_props ans) -> In (p_code p) five ->
    exists b, returned a <= b <= begun calls z /\ planned (p_code p) ln devs (firstn b calls) = Some (p_data p).
Proof. exact L_C90_answers. Qed.
Print Assumptions C90_answers.
Theorem C90_returns : forall (PS : PySet) c r s0 ops devs calls reqs sched j x, new_local c r = (s0, Ok tt) -> no_profile ops ->
  let ln := fst (local_adds ops s0) in Forall (legal (node_heap ln devs)) calls ->
  let s := rrun (running ln devs calls reqs) sched in nth_error (results s) j = Some x ->
  match nth_error calls j with
  | Some (CAdd _) => x = UBool true
  | Some (CSet _ _ _) => exists b, x = UBool b
  | None => False
  end.
Proof. exact L_C90_returns. Qed.
Print Assumptions C90_returns.
Theorem C90_ends : forall (PS : PySet) c r s0 ops devs calls reqs sched, new_local c r = (s0, Ok tt) -> no_profile ops ->
  let ln := fst (local_adds ops s0) in Forall (legal (node_heap ln devs)) calls ->
  length calls * (length (node_table ln) + length calls + 12) <= steps_of 0 sched ->
  let s := rrun (running ln devs calls reqs) sched in
  returned s = length calls /\ forall code, In code five -> live_data code s = planned code ln devs calls.
Proof. exact L_C90_ends. Qed.
Print Assumptions C90_ends.
Theorem C90_served : forall (PS : PySet) ln devs calls reqs sched t m, nth_error reqs t = Some m ->
  3 + length (m_props m) + length (m_sets m) + length (m_gets m) <= steps_of (S t) sched ->
  let s := rrun (running ln devs calls reqs) sched in
  nth_error (r_thr s) (S t) = Some TNone \/ exists i x, nth_error (r_thr s) (S t) = Some (TServe i (SDone x)).
Proof. exact L_C90_served. Qed.
Print Assumptions C90_served.
Theorem C90_lookup : forall (PS : PySet) c r s0 ops devs calls reqs sched, new_local c r = (s0, Ok tt) -> no_profile ops ->
  let ln := fst (local_adds ops s0) in let h := node_heap ln devs in Forall (legal h) calls ->
  let s := rrun (running ln devs calls reqs) sched in
  dkeys (r_tab s) = node_codes (fst (local_adds (adds_of h (firstn (begun calls s) calls)) ln)) /\
  (forall code, In code (dkeys (r_tab s)) -> exists o, found code s = Some o /\ o_code o = code) /\
  forall j i o, nth_error calls j = Some (CAdd i) -> nth_error h i = Some o -> j < begun calls s ->
    (forall k i' o', j < k < begun calls s -> nth_error calls k = Some (CAdd i') -> nth_error h i' = Some o' -> o_code o' <> o_code o) ->
    zget (o_code o) (r_tab s) = Some i.
Proof. exact L_C90_lookup. Qed.
Print Assumptions C90_lookup.
Theorem C90_alone : forall (PS : PySet) c r s0 ops devs i o reqs, new_local c r = (s0, Ok tt) -> no_profile ops ->
  let ln := fst (local_adds ops s0) in nth_error (node_heap ln devs) i = Some o -> o_code o <> 0x0EF001%Z ->
  exists n, let s := rrun (running ln devs [CAdd i] reqs) (repeat 0 n) in
  results s = [UBool true] /\ snd (local_add_object (Some o) ln) = Ok true /\
  forall code, found code s = zget code (ln_objs (fst (local_add_object (Some o) ln))).
Proof. exact L_C90_alone. Qed.
Print Assumptions C90_alone.
(** C90: finding.  One answer describes two moments. *)
Theorem C90_torn_refuted : forall (PS : PySet) c r s0 ops o, new_local c r = (s0, Ok tt) -> no_profile ops ->
  let ln := fst (local_adds ops s0) in ~ In (o_code o) (node_codes ln) -> is_profile_code (o_code o) = false ->
  let calls := [CAdd (length (ln_objs ln))] in
  exists sched ans d3 d5, let s := rrun (running ln [o] calls [mkmsg 1 0x05FF01 0x0EF001 0x62 [mkprop 0xD3 []; mkprop 0xD5 []] [] [] None None]) sched in
  nth_error (r_thr s) 1 = Some (TServe 0 (SDone (Ok (Some ans)))) /\ m_ESV ans = 0x72%Z /\ m_props ans = [mkprop 0xD3 d3; mkprop 0xD5 d5] /\
  planned 0xD3 ln [o] calls = Some d3 /\ planned 0xD5 ln [o] [] = Some d5 /\
  forall b, ~ (planned 0xD3 ln [o] (firstn b calls) = Some d3 /\ planned 0xD5 ln [o] (firstn b calls) = Some d5).
Proof. exact L_C90_torn_refuted. Qed.
Print Assumptions C90_torn_refuted.
Definition jx_new : lnode * res unit := @new_local pyset_nodup false (mkrnd [1;2;3;4;5;6;7;8;9;10;11;12;13] 14 15)%Z.
Definition jx_ln : lnode := fst (@local_adds pyset_nodup [Some (jx_light 0x029101 0x30); Some (jx_light 0x013001 0x30)] (fst jx_new)).
Definition jx_devs : list obj := [jx_light 0x029102 0x30; jx_light 0x001101 0x30].
Definition jx_calls : list ucall := [CAdd 3; CSet 1 0x80 [0x41%Z]; CAdd 4].
Definition jx_ask : msg := jx_req 5 0x0EF001 0x62 [mkprop 0xD3 []; mkprop 0xD5 []].
Definition jx_sched : list nat := repeat 0 8 ++ [1; 1; 1; 1; 1] ++ repeat 0 26.
Example C90_ex :
  snd jx_new = Ok tt /\ no_profile [Some (jx_light 0x029101 0x30); Some (jx_light 0x013001 0x30)] /\
  Forall (legal (node_heap jx_ln jx_devs)) jx_calls /\
  let s1 := @rrun pyset_nodup (running jx_ln jx_devs jx_calls [jx_ask]) (repeat 0 8 ++ [1; 1; 1; 1; 1]) in
  let s := @rrun pyset_nodup (running jx_ln jx_devs jx_calls [jx_ask]) jx_sched in
  (begun jx_calls s1, returned s1) = (1, 0) /\
  (* the count says 3 devices, the list has 2 *)
  nth_error (r_thr s1) 1 = Some (TServe 0 (SDone (Ok (Some (mkmsg 5 0x0EF001 0x05FF01 0x72
    [mkprop 0xD3 [0; 0; 3]%Z; mkprop 0xD5 [2; 2; 0x91; 1; 1; 0x30; 1]%Z] [] [] None None))))) /\
  results s = [UBool true; UBool true; UBool true] /\
  live_data 0xD5 s = Some [4; 2; 0x91; 1; 1; 0x30; 1; 2; 0x91; 2; 0; 0x11; 1]%Z /\
  option_map (get_property_data 0x80) (found 0x029101 s) = Some (Some [0x41%Z]) /\
  live_data 0xD5 s = @planned pyset_nodup 0xD5 jx_ln jx_devs jx_calls.
Proof.
  split; [vm_compute; reflexivity|]. split; [intros o [E|[E|[]]]; inversion E; subst; discriminate|]. split.
  - constructor; [exists (jx_light 0x029102 0x30); split; [vm_compute; reflexivity|intros X; discriminate X]|].
    constructor; [split; [vm_compute; lia|intros X; discriminate X]|].
    constructor; [exists (jx_light 0x001101 0x30); split; [vm_compute; reflexivity|intros X; discriminate X]|constructor].
  - vm_compute. repeat split.
Qed.

(** C91: several threads add objects. *)
Theorem C91_kept : forall (PS : PySet) c r s0 ops devs callss reqs sched u calls j i o, new_local c r = (s0, Ok tt) -> no_profile ops ->
  let ln := fst (local_adds ops s0) in Forall (Forall (legal (node_heap ln devs))) callss ->
  let s := rrun (together ln devs callss reqs) sched in
  nth_error callss u = Some calls -> nth_error calls j = Some (CAdd i) -> nth_error (node_heap ln devs) i = Some o -> j < begun_of u callss s ->
  exists o', found (o_code o) s = Some o' /\ o_code o' = o_code o.
Proof. exact L_C91_kept. Qed.
Print Assumptions C91_kept.
Theorem C91_values : forall (PS : PySet) c r s0 ops devs callss reqs sched code, new_local c r = (s0, Ok tt) -> no_profile ops ->
  let ln := fst (local_adds ops s0) in Forall (Forall (legal (node_heap ln devs))) callss -> In code five ->
  exists a b, sched = a ++ b /\
    live_data code (rrun (together ln devs callss reqs) sched) = Some (says code (dkeys (r_tab (rrun (together ln devs callss reqs) a)))).
Proof. exact L_C91_values. Qed.
Print Assumptions C91_values.
Theorem C91_results : forall (PS : PySet) c r s0 ops devs callss reqs sched u calls j x, new_local c r = (s0, Ok tt) -> no_profile ops ->
  let ln := fst (local_adds ops s0) in Forall (Forall (legal (node_heap ln devs))) callss ->
  let s := rrun (together ln devs callss reqs) sched in
  nth_error callss u = Some calls -> nth_error (results_of u s) j = Some x ->
  match nth_error calls j with
  | Some (CAdd _) => x = UBool true \/ x = UChanged
  | Some (CSet _ _ _) => exists b, x = UBool b
  | None => False
  end.
Proof. exact L_C91_results. Qed.
Print Assumptions C91_results.
Theorem C91_ends : forall (PS : PySet) c r s0 ops devs callss reqs sched u calls, new_local c r = (s0, Ok tt) -> no_profile ops ->
  let ln := fst (local_adds ops s0) in Forall (Forall (legal (node_heap ln devs))) callss -> nth_error callss u = Some calls ->
  length calls * (length (node_table ln) + length (concat callss) + 12) <= steps_of u sched ->
  length (results_of u (rrun (together ln devs callss reqs) sched)) = length calls.
Proof. exact L_C91_ends. Qed.
Print Assumptions C91_ends.
Theorem C91_repair : forall (PS : PySet) c r s0 ops devs callss reqs sched u i todo outs, new_local c r = (s0, Ok tt) -> no_profile ops ->
  let ln := fst (local_adds ops s0) in Forall (Forall (legal (node_heap ln devs))) callss ->
  let s := rrun (together ln devs callss reqs) sched in
  nth_error (r_thr s) u = Some (TUser (CAdd i :: todo) UNext outs) ->
  exists n, let s' := rrun s (repeat u n) in results_of u s' = outs ++ [UBool true] /\ tells (dkeys (r_tab s')) s'.
Proof. exact L_C91_repair. Qed.
Print Assumptions C91_repair.
(** C91: findings.  A device is missing from the profile although both calls have returned True; one
    call raises RuntimeError. *)
Theorem C91_lost_refuted : forall (PS : PySet) c r s0 ops o1 o2, new_local c r = (s0, Ok tt) -> no_profile ops ->
  let ln := fst (local_adds ops s0) in ~ In (o_code o1) (node_codes ln) -> ~ In (o_code o2) (node_codes ln) -> o_code o1 <> o_code o2 ->
  is_profile_code (o_code o1) = false -> is_profile_code (o_code o2) = false -> let n := length (ln_objs ln) in
  exists sched, let s := rrun (together ln [o1; o2] [[CAdd n]; [CAdd (S n)]] []) sched in
  results_of 0 s = [UBool true] /\ results_of 1 s = [UBool true] /\
  dkeys (r_tab s) = node_codes ln ++ [o_code o1; o_code o2] /\ tells (node_codes ln ++ [o_code o1]) s /\
  live_data 0xD3 s <> Some (says 0xD3 (dkeys (r_tab s))) /\ live_data 0xD5 s <> Some (says 0xD5 (dkeys (r_tab s))).
Proof. exact L_C91_lost_refuted. Qed.
Print Assumptions C91_lost_refuted.
Theorem C91_changed_refuted : forall (PS : PySet) c r s0 ops o1 o2, new_local c r = (s0, Ok tt) -> no_profile ops ->
  let ln := fst (local_adds ops s0) in ~ In (o_code o1) (node_codes ln) -> ~ In (o_code o2) (node_codes ln) -> o_code o1 <> o_code o2 ->
  is_profile_code (o_code o1) = false -> is_profile_code (o_code o2) = false -> let n := length (ln_objs ln) in
  exists sched, results_of 0 (rrun (together ln [o1; o2] [[CAdd n]; [CAdd (S n)]] []) sched) = [UChanged].
Proof. exact L_C91_changed_refuted. Qed.
Print Assumptions C91_changed_refuted.
Definition jx_pair : list (list ucall) := [[CAdd 3]; [CAdd 4; CAdd 4]].
Example C91_ex :
  let run := fun sched => @rrun pyset_nodup (together jx_ln jx_devs jx_pair [jx_ask]) sched in
  Forall (Forall (legal (node_heap jx_ln jx_devs))) jx_pair /\
  (* thread 0 has collected the objects, thread 1 adds one, thread 0 stores *)
  let s := run (repeat 0 7 ++ repeat 1 17 ++ repeat 0 9) in
  results_of 0 s = [UBool true] /\ results_of 1 s = [UBool true] /\ dkeys (r_tab s) = [0x0EF001; 0x029101; 0x013001; 0x029102; 0x001101]%Z /\
  live_data 0xD5 s = Some [3; 2; 0x91; 1; 1; 0x30; 1; 2; 0x91; 2]%Z /\
  (* the next call repairs it *)
  live_data 0xD5 (run (repeat 0 7 ++ repeat 1 17 ++ repeat 0 9 ++ repeat 1 17)) = Some [4; 2; 0x91; 1; 1; 0x30; 1; 2; 0x91; 2; 0; 0x11; 1]%Z /\
  (* the loop of thread 0 is interrupted *)
  results_of 0 (run [0; 0; 0; 1; 0]) = [UChanged].
Proof.
  split; [|vm_compute; repeat split].
  constructor; [constructor; [exists (jx_light 0x029102 0x30); split; [vm_compute; reflexivity|intros X; discriminate X]|constructor]|].
  constructor; [|constructor].
  constructor; [exists (jx_light 0x001101 0x30); split; [vm_compute; reflexivity|intros X; discriminate X]|].
  constructor; [exists (jx_light 0x001101 0x30); split; [vm_compute; reflexivity|intros X; discriminate X]|constructor].
Qed.
