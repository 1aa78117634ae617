(** Property C111: the log. *)
From Verif Require Import PyBase MsgM PropM ObjM NodeM LocalM CtrlM LogM
  SpecHex SpecWire SpecReq SpecNode SpecLocal SpecSrv SpecEnd SpecLog MapP NodeP EndP LogP.

(** C111: a line says one thing only. *)
Theorem C111_readable : forall t dir own peer b dir' own' peer' b', line_says t dir own peer b -> line_says t dir' own' peer' b' ->
  (dir = "<-" \/ dir = "->")%string -> (dir' = "<-" \/ dir' = "->")%string ->
  plain_name own -> plain_name own' -> plain_name (fst peer) -> plain_name (fst peer') ->
  dir = dir' /\ own = own' /\ peer = peer' /\ b = b'.
Proof. exact L_C111_readable. Qed.
Print Assumptions C111_readable.
(** C111: the records of one sending. *)
Theorem C111_sent : forall w tr s m a tr' m' rs r, transmit_logged w tr s m a = (tr', m', rs, r) ->
  server_transmit w tr s m a = (tr', m', r) /\
  exists evs, tr' = tr ++ evs /\ Forall2 about_sent (filter returned (sent evs)) rs /\
  (r = Ok true -> exists t, rs = [(10, t)]) /\ (r = Ok false -> exists t, rs = [(40, t)]) /\ (forall e, r = Err e -> rs = []).
Proof. exact L_C111_sent. Qed.
Print Assumptions C111_sent.
(** C111: the records of one received datagram, exactly. *)
Theorem C111_received : forall (PS : PySet) w tr s i d s' tr' rs, bytes_ok (fst d) -> deliver_logged w tr s i d = (s', tr', rs) ->
  deliver w tr s i d = (s', tr') /\ exists evs, tr' = tr ++ evs /\
  ((exists v f t rs', server_at s i = Some v /\ s_alive v = true /\ denotes (firstn 1024 (fst d)) f /\
     rs = (10, t) :: rs' /\ line_says t "<-" (s_if v) (snd d) (wire f) /\ Forall2 about_sent (filter returned (sent evs)) rs') \/
   (((forall v, server_at s i = Some v -> s_alive v = false) \/ ~ exists f, denotes (firstn 1024 (fst d)) f) /\ rs = [] /\ evs = [])).
Proof. exact L_C111_received. Qed.
Print Assumptions C111_received.
(** C111: the records of any sequence of datagrams. *)
Theorem C111_run : forall (PS : PySet) w l tr s s' tr' rs, Forall (fun x => bytes_ok (fst (snd x))) l -> run_logged w tr s l = (s', tr', rs) ->
  run w tr s l = (s', tr') /\ exists evs ins outs heard, tr' = tr ++ evs /\ merged ins outs rs /\
  Forall2 about_sent (filter returned (sent evs)) outs /\ subseq heard l /\
  Forall2 (fun x r => exists v f, server_at s (fst x) = Some v /\ denotes (firstn 1024 (fst (snd x))) f /\ fst r = 10 /\ line_says (snd r) "<-" (s_if v) (snd (snd x)) (wire f)) heard ins.
Proof. exact L_C111_run. Qed.
Print Assumptions C111_run.
(** C111: what is printed of the records. *)
Theorem C111_printed : forall clock l n rs,
  Forall (fun r => In (fst r) [10; 20; 30; 40; 50]) rs ->
  Forall2 (fun x t => exists name, named (fst (snd x)) name /\ t = (clock (fst x) ++ " [" ++ name ++ "] " ++ snd (snd x))%string)
    (filter (fun x => (if lg_level l =? 0 then lg_root l else lg_level l) <=? fst (snd x)) (combine (seq n (length rs)) rs)) (printed clock l n rs).
Proof. exact L_C111_printed. Qed.
Print Assumptions C111_printed.
Theorem C111_level : forall clock l n lv rs, 0 < lv <= 10 -> Forall (fun r => In (fst r) [10; 20; 30; 40; 50]) rs ->
  length (printed clock (setLevel lv l) n rs) = length rs.
Proof. exact L_C111_level. Qed.
Print Assumptions C111_level.
(** A read request of a controller, something that is no frame, and the request again. *)
Definition lx_request : list Z := [0x10; 0x81; 0; 7; 5; 0xFF; 1; 2; 0x91; 1; 0x62; 1; 0x80; 0].
Definition lx_run := @run_logged pyset_nodup good_os [] shelf_node [(2%nat, (lx_request, ctl_addr)); (2%nat, ([1; 2; 3], ctl_addr)); (2%nat, (lx_request, ctl_addr))].
Example C111_ex :
  printed (fun _ => "12:00"%string) (setLevel 10 (mklogger 0 30)) 0 (snd lx_run) =
    ["12:00 [DEBUG] 10.0.0.2       :3610  <- 10.0.0.8       :3610  1081000705FF0102910162018000"%string;
     "12:00 [DEBUG] 192.168.0.2    :3610  -> 10.0.0.8       :3610  1081000702910105FF017201800130"%string] /\
  printed (fun _ => "12:00"%string) (mklogger 0 30) 0 (snd lx_run) = [] /\
  printed (fun _ => "12:00"%string) (setLevel 0 (mklogger 0 30)) 0 (snd lx_run ++ [error "failed"]) = ["12:00 [ERROR] failed"%string].
Proof. repeat split; vm_compute; reflexivity. Qed.
Example C111_line_ex : line_says "10.0.0.2       :3610  <- 192.168.100.200:61000 1081" "<-" "10.0.0.2" ("192.168.100.200"%string, 61000) [0x10; 0x81].
Proof.
  exists "10.0.0.2       "%string, "192.168.100.200"%string, "61000"%string, "1081"%string.
  split; [exists "       "%string; split; [repeat constructor|split; reflexivity]|]. split; [exists ""%string; split; [constructor|split; reflexivity]|].
  split; [exists ""%string; split; [constructor|split; reflexivity]|]. split; [|reflexivity].
  apply (ht_byte "1" "0" 1 0); [split; [lia|left; reflexivity]..|]. apply (ht_byte "8" "1" 8 1); [split; [lia|left; reflexivity]..|]. constructor.
Qed.
(** C111: what is no frame is not logged; the receiving thread ends. *)
Theorem C111_malformed_refuted : forall (PS : PySet) w tr s i v b a, server_at s i = Some v -> s_alive v = true -> bytes_ok b ->
  (~ exists f, denotes (firstn 1024 b) f) -> exists s', deliver_logged w tr s i (b, a) = (s', tr, []) /\ exists v', server_at s' i = Some v' /\ s_alive v' = false.
Proof. exact L_C111_malformed_refuted. Qed.
Print Assumptions C111_malformed_refuted.
(** C111: of a datagram that goes on after a frame, the frame is logged. *)
Theorem C111_tail_refuted : forall (PS : PySet) w tr s i v f tail a, server_at s i = Some v -> s_alive v = true -> bytes_ok (wire f ++ tail) -> frame_msg f -> tail <> [] ->
  (length (wire f) <= 1024)%nat -> plain_name (s_if v) -> plain_name (fst a) ->
  exists s' tr' t rs, deliver_logged w tr s i (wire f ++ tail, a) = (s', tr', (10, t) :: rs) /\
  line_says t "<-" (s_if v) a (wire f) /\ ~ line_says t "<-" (s_if v) a (wire f ++ tail).
Proof. exact L_C111_tail_refuted. Qed.
Print Assumptions C111_tail_refuted.
(** C111: sending that raises is not logged. *)
Theorem C111_raised_refuted : forall w tr s m a b e, to_bytes (set_to (Some a) m) = Ok b -> os_sendto w tr (s_if s) b a = Err e ->
  transmit_logged w tr s m a = (tr ++ [EvSend (s_if s) b a (Err e)], set_to (Some a) m, [], Err e).
Proof. exact L_C111_raised_refuted. Qed.
Print Assumptions C111_raised_refuted.
Example C111_not_ex :
  snd (@deliver_logged pyset_nodup good_os [] shelf_node 2 ([1; 2; 3], ctl_addr)) = [] /\
  map snd (snd (@deliver_logged pyset_nodup good_os [] shelf_node 2 ([0x10; 0x81; 0; 7; 5; 0xFF; 1; 2; 0x92; 1; 0x62; 0; 0xFF; 0xFF], ctl_addr))) =
    ["10.0.0.2       :3610  <- 10.0.0.8       :3610  1081000705FF010292016200"%string].
Proof. split; vm_compute; reflexivity. Qed.
Example C111_raised_ex :
  transmit_logged (mkos (os_netif good_os) (os_bind good_os) (fun _ _ _ _ => Err OSError) (os_resolve good_os) (os_user good_os)) [] (mksrv true "10.0.0.2" true true []) new_msg ctl_addr =
  ([EvSend "10.0.0.2" [0x10; 0x81; 0; 0; 0; 0; 0; 0; 0; 0; 0; 0] ctl_addr (Err OSError)], set_to (Some ctl_addr) new_msg, [], Err OSError).
Proof. vm_compute. reflexivity. Qed.
