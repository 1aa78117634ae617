(** Lemmas about answering requests (C18-C28). *)
From Verif Require Import PyBase BytesM EsvM MsgM PropM ObjM SpecWire SpecReq DictP ObjP.
Require Import ZifyBool.

Lemma read_enabled_eq p : is_read_enabled p = can_read p.
Proof. unfold is_read_enabled, attribute_enabled, can_read, REQUIRED, OPTIONAL. destruct (op_get p =? 1), (op_get p =? 2); reflexivity. Qed.
Lemma write_enabled_eq p : is_write_enabled p = can_write p.
Proof. unfold is_write_enabled, attribute_enabled, can_write, REQUIRED, OPTIONAL. destruct (op_set p =? 1), (op_set p =? 2); reflexivity. Qed.

(** ** Generic facts about the loops *)

Definition keeps_code (f : obj -> prop -> obj * res (prop * bool)) : Prop :=
  forall o mp o' rp b, f o mp = (o', Ok (rp, b)) -> p_code rp = p_code mp.

Lemma loop_codes f : keeps_code f -> forall l o o' rps n,
  do_loop f o l = (o', Ok (rps, n)) -> map p_code rps = map p_code l.
Proof.
  intros K. induction l as [|mp l IH]; intros o o' rps n; cbn [do_loop].
  - intros [= <- <- <-]. reflexivity.
  - destruct (f o mp) as [o1 [[rp b]|e]] eqn:E; [|discriminate].
    destruct (do_loop f o1 l) as [o2 [[rps' n']|e]] eqn:E2; [|discriminate].
    intros [= <- <- <-]. cbn [map]. f_equal; [eapply K; eassumption|eapply IH; eassumption].
Qed.

Lemma keeps_write : keeps_code do_write.
Proof.
  intros o mp o' rp b. unfold do_write. destruct (get_property (p_code mp) o) as [p|].
  - destruct (write_requested o p (p_data mp)) as [o1 [[]|e]]; [intros [= _ <- _]|intros [= _ <- _]|discriminate]; reflexivity.
  - intros [= _ <- _]. reflexivity.
Qed.
Lemma keeps_read : keeps_code do_read.
Proof.
  intros o mp o' rp b. unfold do_read. destruct (get_property (p_code mp) o) as [p|].
  - destruct (read_requested o (Some p)) as [o1 [[]|e]]; [intros [= _ <- _]|intros [= _ <- _]|discriminate]; reflexivity.
  - intros [= _ <- _]. reflexivity.
Qed.
Lemma keeps_read_wr : keeps_code do_read_wr.
Proof.
  intros o mp o' rp b. unfold do_read_wr.
  destruct (read_requested o (get_property (p_code mp) o)) as [o1 [[]|e]]; [|intros [= _ <- _]; reflexivity|discriminate].
  destruct (get_property (p_code mp) o) as [p|]; [intros [= _ <- _]; reflexivity|discriminate].
Qed.
Lemma keeps_skip : keeps_code do_skip.
Proof. intros o mp o' rp b [= _ <- _]. reflexivity. Qed.
Lemma keeps_plain esv : keeps_code (do_plain esv).
Proof.
  unfold do_plain. destruct (is_read_request esv); [apply keeps_read|].
  destruct (is_write_request esv); [apply keeps_write|apply keeps_skip].
Qed.

(** ** Shape of every response (C18, C19) *)
Definition resp_of (req : msg) (e : Z) (ps ss gs : list prop) : msg :=
  mkmsg (m_TID req) (m_DEOJ req) (m_SEOJ req) e ps ss gs None None.

Lemma response_shape o req o' told res : obj_message_received o req = (o', told, Ok (Some res)) ->
  exists e ps ss gs, res = resp_of req e ps ss gs /\
    (m_ESV req =? 0x6E = true -> ps = [] /\ map p_code ss = map p_code (m_sets req) /\
       map p_code gs = map p_code (m_gets req)) /\
    (m_ESV req =? 0x6E = false -> ss = [] /\ gs = [] /\ map p_code ps = map p_code (m_props req)).
Proof.
  unfold obj_message_received. destruct (negb (is_request (m_ESV req))); [discriminate|].
  unfold is_write_read_request, WRITE_READ_REQUEST.
  destruct (o_handler o) eqn:EH; [discriminate| | |];
  (destruct (m_ESV req =? 0x6E) eqn:W;
   [ destruct (do_loop do_write o (m_sets req)) as [o1 [[ss n]|ex]] eqn:L1; [|discriminate];
     destruct (do_loop do_read_wr o1 (m_gets req)) as [o2 [[gs k]|ex]] eqn:L2; [|discriminate];
     destruct (response_esv (m_ESV req) (n + k =? OPC req + OPCSet req + OPCGet req)) as [e|]; [|discriminate];
     intros [= _ _ <-]; exists e, [], ss, gs; split; [reflexivity|]; split; [|discriminate]; intros _;
     split; [reflexivity|]; split; [exact (loop_codes _ keeps_write _ _ _ _ _ L1)|exact (loop_codes _ keeps_read_wr _ _ _ _ _ L2)]
   | destruct (do_loop (do_plain (m_ESV req)) o (m_props req)) as [o1 [[ps n]|ex]] eqn:L1; [|discriminate];
     destruct (response_esv (m_ESV req) (n =? OPC req + OPCSet req + OPCGet req)) as [e|]; [|discriminate];
     intros [= _ _ <-]; exists e, ps, [], []; split; [reflexivity|]; split; [discriminate|]; intros _;
     split; [reflexivity|]; split; [reflexivity|]; exact (loop_codes _ (keeps_plain _) _ _ _ _ _ L1) ]).
Qed.

Lemma L_C18_correlation : forall o req o' told res,
  obj_message_received o req = (o', told, Ok (Some res)) ->
  m_TID res = m_TID req /\ m_DEOJ res = m_SEOJ req /\ m_SEOJ res = m_DEOJ req.
Proof.
  intros o req o' told res H. destruct (response_shape _ _ _ _ _ H) as (e & ps & ss & gs & -> & _).
  repeat split.
Qed.

Lemma L_C19_mirrors : forall o req o' told res,
  obj_message_received o req = (o', told, Ok (Some res)) ->
  (m_ESV req = 0x6E -> m_props res = [] /\ map p_code (m_sets res) = map p_code (m_sets req) /\
     map p_code (m_gets res) = map p_code (m_gets req)) /\
  (m_ESV req <> 0x6E -> m_sets res = [] /\ m_gets res = [] /\
     map p_code (m_props res) = map p_code (m_props req)).
Proof.
  intros o req o' told res H. destruct (response_shape _ _ _ _ _ H) as (e & ps & ss & gs & -> & A & B).
  split; intros E; [apply A|apply B]; cbn; lia.
Qed.

(** ** Built-in handlers *)

Lemma wf_get o c p : wf_obj o -> get_property c o = Some p -> get_property (op_code p) o = Some p.
Proof. intros W H. now rewrite (W c p H). Qed.

Lemma builtin_read o p c : builtin (o_handler o) -> wf_obj o -> get_property c o = Some p ->
  read_requested o (Some p) = (o, Ok (can_read p)).
Proof.
  intros B W H. unfold read_requested. rewrite (wf_get o c p W H), read_enabled_eq.
  destruct B as [-> | ->]; reflexivity.
Qed.
Lemma builtin_write o p c d : builtin (o_handler o) -> wf_obj o -> get_property c o = Some p ->
  write_requested o p d = (o, Ok (may_write (o_handler o) p)).
Proof.
  intros B W H. unfold write_requested, may_write. rewrite (wf_get o c p W H), write_enabled_eq.
  destruct B as [-> | ->]; reflexivity.
Qed.

Lemma do_read_builtin o mp : builtin (o_handler o) -> wf_obj o ->
  do_read o mp = (o, Ok (mkprop (p_code mp) (fst (read_answer o mp)), snd (read_answer o mp))).
Proof.
  intros B W. unfold do_read, read_answer. destruct (get_property (p_code mp) o) as [p|] eqn:E; [|reflexivity].
  rewrite (builtin_read o p _ B W E). unfold current. rewrite E. destruct (can_read p); reflexivity.
Qed.

Lemma do_read_wr_builtin o mp : builtin (o_handler o) -> wf_obj o ->
  do_read_wr o mp =
    if has_property (p_code mp) o
    then (o, Ok (mkprop (p_code mp) (fst (read_answer o mp)), snd (read_answer o mp)))
    else (o, Err AttributeError).
Proof.
  intros B W. unfold do_read_wr, read_answer, has_property. destruct (get_property (p_code mp) o) as [p|] eqn:E; cbn [isSome].
  - rewrite (builtin_read o p _ B W E). unfold current. rewrite E. destruct (can_read p); reflexivity.
  - unfold read_requested. destruct B as [-> | ->]; reflexivity.
Qed.

Definition apply_write (o : obj) (mp : prop) : obj :=
  if snd (write_answer o mp) then store (p_code mp) (p_data mp) o else o.

Lemma do_write_builtin o mp : builtin (o_handler o) -> wf_obj o ->
  do_write o mp = (apply_write o mp, Ok (mkprop (p_code mp) (fst (write_answer o mp)), snd (write_answer o mp))).
Proof.
  intros B W. unfold do_write, apply_write, write_answer. destruct (get_property (p_code mp) o) as [p|] eqn:E; [|reflexivity].
  rewrite (builtin_write o p _ _ B W E). destruct (may_write (o_handler o) p); reflexivity.
Qed.

Lemma store_handler c d o : o_handler (store c d o) = o_handler o.
Proof. unfold store, set_property_data. destruct (get_property c o); reflexivity. Qed.
Lemma store_frame c d o : store c d o = set_o_props (o_props (store c d o)) o.
Proof. unfold store, set_property_data. destruct (get_property c o); cbn [fst]; destruct o; reflexivity. Qed.

Lemma store_wf c d o : wf_obj o -> wf_obj (store c d o).
Proof.
  intros W k p. unfold store. rewrite set_property_data_get.
  destruct (Z.eqb_spec c k) as [->|]; [|apply W].
  destruct (get_property k o) as [q|] eqn:E; [|discriminate]. intros [= <-]. exact (W k q E).
Qed.

Lemma apply_write_wf o mp : wf_obj o -> wf_obj (apply_write o mp).
Proof. intros W. unfold apply_write. destruct (snd (write_answer o mp)); [now apply store_wf|assumption]. Qed.
Lemma apply_write_handler o mp : o_handler (apply_write o mp) = o_handler o.
Proof. unfold apply_write. destruct (snd (write_answer o mp)); [apply store_handler|reflexivity]. Qed.

Lemma may_write_data h d p : may_write h (set_op_data d p) = may_write h p.
Proof. reflexivity. Qed.

Lemma written_refl o : written o [] o.
Proof.
  split; [destruct o; reflexivity|]. split; [reflexivity|]. intros c. cbn [last_data].
  destruct (get_property c o) as [p|]; [|reflexivity]. destruct (may_write (o_handler o) p); reflexivity.
Qed.

Lemma written_handler o l o' : written o l o' -> o_handler o' = o_handler o.
Proof. intros (E & _). rewrite E. reflexivity. Qed.

Lemma written_one o mp : written o [mp] (apply_write o mp).
Proof.
  unfold apply_write, write_answer.
  destruct (get_property (p_code mp) o) as [p|] eqn:E; cbn [snd].
  - destruct (may_write (o_handler o) p) eqn:M; cbn [snd].
    + split; [apply store_frame|]. split; [apply set_property_data_keys|].
      intros c. unfold store. rewrite set_property_data_get. cbn [last_data].
      destruct (Z.eqb_spec (p_code mp) c) as [<-|].
      * rewrite E, M. reflexivity.
      * destruct (get_property c o) as [q|]; [|reflexivity]. destruct (may_write (o_handler o) q); reflexivity.
    + split; [destruct o; reflexivity|]. split; [reflexivity|]. intros c. cbn [last_data].
      destruct (get_property c o) as [q|] eqn:Eq; [|reflexivity].
      destruct (may_write (o_handler o) q) eqn:Mq; [|reflexivity].
      destruct (Z.eqb_spec (p_code mp) c) as [<-|]; [congruence|reflexivity].
  - split; [destruct o; reflexivity|]. split; [reflexivity|]. intros c. cbn [last_data].
    destruct (get_property c o) as [q|] eqn:Eq; [|reflexivity].
    destruct (Z.eqb_spec (p_code mp) c) as [<-|]; [congruence|].
    destruct (may_write (o_handler o) q); reflexivity.
Qed.

Lemma last_data_app c l1 l2 : last_data c (l1 ++ l2) =
  match last_data c l2 with Some d => Some d | None => last_data c l1 end.
Proof.
  induction l1 as [|mp l1 IH]; cbn [app last_data].
  - destruct (last_data c l2); reflexivity.
  - rewrite IH. destruct (last_data c l2); [reflexivity|]. reflexivity.
Qed.

Lemma written_trans o l1 o1 l2 o2 : written o l1 o1 -> written o1 l2 o2 -> written o (l1 ++ l2) o2.
Proof.
  intros (F1 & K1 & G1) (F2 & K2 & G2). split; [|split].
  - transitivity (set_o_props (o_props o2) o1); [exact F2|]. rewrite F1. reflexivity.
  - congruence.
  - intros c. rewrite G2, G1, last_data_app. assert (EH : o_handler o1 = o_handler o) by (rewrite F1; reflexivity). rewrite EH.
    destruct (get_property c o) as [p|]; [|reflexivity].
    destruct (may_write (o_handler o) p) eqn:M.
    + destruct (last_data c l1) as [d1|]; rewrite ?may_write_data, M; destruct (last_data c l2); reflexivity.
    + rewrite M. reflexivity.
Qed.

Lemma written_answer o l o' mp : written o l o' -> write_answer o' mp = write_answer o mp.
Proof.
  intros W. pose proof (written_handler _ _ _ W) as H. destruct W as (_ & _ & G).
  unfold write_answer. rewrite G, H. destruct (get_property (p_code mp) o) as [p|]; [|reflexivity].
  destruct (may_write (o_handler o) p) eqn:M; [|now rewrite M].
  destruct (last_data (p_code mp) l); rewrite ?may_write_data, M; reflexivity.
Qed.
Lemma written_read_snd o l o' mp : written o l o' -> snd (read_answer o' mp) = snd (read_answer o mp).
Proof.
  intros (_ & _ & G). unfold read_answer. rewrite G. destruct (get_property (p_code mp) o) as [p|]; [|reflexivity].
  destruct (may_write (o_handler o) p); [|reflexivity]. destruct (last_data (p_code mp) l) as [d|]; [|reflexivity].
  change (can_read (set_op_data d p)) with (can_read p). destruct (can_read p); reflexivity.
Qed.
Lemma written_has o l o' c : written o l o' -> has_property c o' = has_property c o.
Proof. intros (_ & _ & G). unfold has_property. rewrite G. destruct (get_property c o); reflexivity. Qed.

Lemma written_wf o l o' : written o l o' -> wf_obj o -> wf_obj o'.
Proof.
  intros (_ & _ & G) W c p. rewrite G. destruct (get_property c o) as [q|] eqn:E; [|discriminate].
  intros [= <-]. destruct (may_write (o_handler o) q); [destruct (last_data c l)|]; exact (W c q E).
Qed.

Definition count (f : prop -> list Z * bool) (l : list prop) : Z :=
  zlen (filter (fun mp => snd (f mp)) l).

Lemma count_cons f mp l : count f (mp :: l) = (if snd (f mp) then 1 else 0) + count f l.
Proof. unfold count. cbn [filter]. destruct (snd (f mp)); unfold zlen; cbn [length]; lia. Qed.
Lemma count_bounds f l : 0 <= count f l <= zlen l.
Proof. induction l as [|mp l IH]; [unfold count, zlen; cbn; lia|]. rewrite count_cons. unfold zlen in *. cbn [length]. destruct (snd (f mp)); lia. Qed.
Lemma count_all f l : (count f l =? zlen l) = all_accepted f l.
Proof.
  induction l as [|mp l IH]; [reflexivity|]. rewrite count_cons. unfold all_accepted in *. cbn [forallb].
  rewrite <- IH. pose proof (count_bounds f l). unfold zlen in *. cbn [length]. destruct (snd (f mp)); cbn [andb]; lia.
Qed.
Lemma count_ext f g l : (forall mp, In mp l -> snd (f mp) = snd (g mp)) -> count f l = count g l.
Proof.
  intros H. unfold count. f_equal. apply filter_ext_in. exact H.
Qed.
Lemma answers_ext f g l : (forall mp, In mp l -> fst (f mp) = fst (g mp)) -> answers f l = answers g l.
Proof. intros H. unfold answers. apply map_ext_in. intros mp Hm. now rewrite H. Qed.

Lemma loop_read o l : builtin (o_handler o) -> wf_obj o ->
  do_loop do_read o l = (o, Ok (answers (read_answer o) l, count (read_answer o) l)).
Proof.
  intros B W. induction l as [|mp l IH]; [reflexivity|]. cbn [do_loop].
  rewrite (do_read_builtin o mp B W), IH, count_cons. reflexivity.
Qed.

Lemma loop_read_wr o l : builtin (o_handler o) -> wf_obj o ->
  do_loop do_read_wr o l =
    if forallb (fun mp => has_property (p_code mp) o) l
    then (o, Ok (answers (read_answer o) l, count (read_answer o) l)) else (o, Err AttributeError).
Proof.
  intros B W. induction l as [|mp l IH]; [reflexivity|]. cbn [do_loop forallb].
  rewrite (do_read_wr_builtin o mp B W). destruct (has_property (p_code mp) o); cbn [andb]; [|reflexivity].
  rewrite IH, count_cons. destruct (forallb _ l); reflexivity.
Qed.

Lemma loop_write l : forall o, builtin (o_handler o) -> wf_obj o ->
  exists o', do_loop do_write o l = (o', Ok (answers (write_answer o) l, count (write_answer o) l))
    /\ written o l o'.
Proof.
  induction l as [|mp l IH]; intros o B W.
  - exists o. split; [reflexivity|apply written_refl].
  - cbn [do_loop]. rewrite (do_write_builtin o mp B W).
    destruct (IH (apply_write o mp)) as (o' & E & Wr).
    { now rewrite apply_write_handler. } { now apply apply_write_wf. }
    rewrite E. pose proof (written_one o mp) as W1. exists o'. split.
    + rewrite count_cons. cbn [answers map]. 
      rewrite (answers_ext _ (write_answer o) l) by (intros; now rewrite (written_answer _ _ _ _ W1)).
      rewrite (count_ext _ (write_answer o) l) by (intros; now rewrite (written_answer _ _ _ _ W1)).
      reflexivity.
    + exact (written_trans _ _ _ _ _ W1 Wr).
Qed.

Lemma loop_skip o l : do_loop do_skip o l = (o, Ok (answers (fun _ => ([], false)) l, 0)).
Proof.
  induction l as [|mp l IH]; [reflexivity|]. cbn [do_loop do_skip]. rewrite IH. reflexivity.
Qed.

Lemma builtin_not_none o : builtin (o_handler o) -> o_handler o <> HNone.
Proof. intros [-> | ->]; discriminate. Qed.

Lemma plain_counts req : plain req -> two_blocks (m_ESV req) = false ->
  OPC req + OPCSet req + OPCGet req = zlen (m_props req).
Proof.
  unfold plain, OPC, OPCSet, OPCGet. intros P E. rewrite E in P. destruct P as (-> & ->). unfold zlen. cbn. lia.
Qed.
Lemma plain_counts2 req : plain req -> two_blocks (m_ESV req) = true ->
  OPC req + OPCSet req + OPCGet req = zlen (m_sets req) + zlen (m_gets req).
Proof.
  unfold plain, OPC, OPCSet, OPCGet. intros P E. rewrite E in P. rewrite P. unfold zlen. cbn. lia.
Qed.

Ltac hnone o := destruct (o_handler o) eqn:?EH; [congruence| | |].

Lemma received_plain o req : o_handler o <> HNone -> is_request (m_ESV req) = true ->
  m_ESV req =? 0x6E = false ->
  obj_message_received o req =
  match do_loop (do_plain (m_ESV req)) o (m_props req) with
  | (o1, Err e) => (o1, o_obs o, Err e)
  | (o1, Ok (ps, n)) =>
      (o1, o_obs o, Ok (option_map (fun e => resp_of req e ps [] [])
         (response_esv (m_ESV req) (n =? OPC req + OPCSet req + OPCGet req))))
  end.
Proof.
  intros H R W. unfold obj_message_received, is_write_read_request, WRITE_READ_REQUEST. rewrite R, W. cbn [negb].
  destruct (o_handler o); [congruence| | |];
  (destruct (do_loop (do_plain (m_ESV req)) o (m_props req)) as [o1 [[ps n]|e]]; [|reflexivity];
   destruct (response_esv (m_ESV req) (n =? OPC req + OPCSet req + OPCGet req)); reflexivity).
Qed.

Lemma received_wr o req : o_handler o <> HNone -> m_ESV req = 0x6E ->
  obj_message_received o req =
  match do_loop do_write o (m_sets req) with
  | (o1, Err e) => (o1, o_obs o, Err e)
  | (o1, Ok (ss, n)) =>
    match do_loop do_read_wr o1 (m_gets req) with
    | (o2, Err e) => (o2, o_obs o, Err e)
    | (o2, Ok (gs, k)) =>
      (o2, o_obs o, Ok (Some (resp_of req
         (if n + k =? OPC req + OPCSet req + OPCGet req then 0x7E else 0x5E) [] ss gs)))
    end
  end.
Proof.
  intros H R. unfold obj_message_received. rewrite R.
  change (negb (is_request 0x6E)) with false. change (is_write_read_request 0x6E) with true. cbn [negb].
  destruct (o_handler o); [congruence| | |];
  (destruct (do_loop do_write o (m_sets req)) as [o1 [[ss n]|e]]; [|reflexivity];
   destruct (do_loop do_read_wr o1 (m_gets req)) as [o2 [[gs k]|e]]; [|reflexivity];
   destruct (n + k =? OPC req + OPCSet req + OPCGet req); reflexivity).
Qed.

(** ** C20 *)
Lemma L_C20_builtin_read : forall o req, builtin (o_handler o) -> wf_obj o -> plain req ->
  m_ESV req = 0x62 ->
  obj_message_received o req =
    (o, o_obs o, Ok (Some (mkmsg (m_TID req) (m_DEOJ req) (m_SEOJ req)
      (if all_accepted (read_answer o) (m_props req) then 0x72 else 0x52)
      (answers (read_answer o) (m_props req)) [] [] None None))).
Proof.
  intros o req B W P E. rewrite received_plain; [|now apply builtin_not_none|now rewrite E|now rewrite E].
  rewrite plain_counts by (try assumption; now rewrite E).
  rewrite E. change (do_plain 0x62) with do_read.
  rewrite loop_read by assumption. rewrite count_all. destruct (all_accepted _ _); reflexivity.
Qed.

Lemma loop_reads l : forall o o' rps n, do_loop do_read o l = (o', Ok (rps, n)) ->
  exists bs, reads o l o' rps bs /\ (n =? zlen l) = all_true bs /\ 0 <= n <= zlen l.
Proof.
  induction l as [|mp l IH]; intros o o' rps n; cbn [do_loop].
  - intros [= <- <- <-]. exists []. split; [constructor|]. split; [reflexivity|]. unfold zlen; cbn; lia.
  - destruct (do_read o mp) as [o1 [[rp b]|e]] eqn:E; [|discriminate].
    destruct (do_loop do_read o1 l) as [o2 [[rps' n']|e]] eqn:E2; [|discriminate].
    intros [= <- <- <-]. destruct (IH _ _ _ _ E2) as (bs & R & C & Bd).
    exists (b :: bs). split; [|split].
    + unfold do_read in E. destruct (get_property (p_code mp) o) as [p|] eqn:G.
      * destruct (read_requested o (Some p)) as [o1' [[]|e]] eqn:RR; [| |discriminate];
          injection E as -> <- <-.
        -- eapply reads_allowed; [exact G|exact RR| |exact R].
           unfold current. destruct (get_property (p_code mp) o1); reflexivity.
        -- eapply reads_refused; eassumption.
      * injection E as -> <- <-. apply reads_unknown; assumption.
    + unfold zlen in *. cbn [length all_true forallb]. fold (all_true bs). rewrite <- C. destruct b; cbn [andb]; lia.
    + unfold zlen in *. cbn [length]. destruct b; lia.
Qed.

Lemma loop_writes l : forall o o' rps n, do_loop do_write o l = (o', Ok (rps, n)) ->
  exists bs, writes o l o' rps bs /\ (n =? zlen l) = all_true bs /\ 0 <= n <= zlen l.
Proof.
  induction l as [|mp l IH]; intros o o' rps n; cbn [do_loop].
  - intros [= <- <- <-]. exists []. split; [constructor|]. split; [reflexivity|]. unfold zlen; cbn; lia.
  - destruct (do_write o mp) as [o1 [[rp b]|e]] eqn:E; [|discriminate].
    destruct (do_loop do_write o1 l) as [o2 [[rps' n']|e]] eqn:E2; [|discriminate].
    intros [= <- <- <-]. destruct (IH _ _ _ _ E2) as (bs & R & C & Bd).
    exists (b :: bs). split; [|split].
    + unfold do_write in E. destruct (get_property (p_code mp) o) as [p|] eqn:G.
      * destruct (write_requested o p (p_data mp)) as [o1' [[]|e]] eqn:RR; [| |discriminate];
          injection E as <- <- <-.
        -- eapply writes_allowed; [exact G|exact RR|exact R].
        -- eapply writes_refused; eassumption.
      * injection E as -> <- <-. apply writes_unknown; assumption.
    + unfold zlen in *. cbn [length all_true forallb]. fold (all_true bs). rewrite <- C. destruct b; cbn [andb]; lia.
    + unfold zlen in *. cbn [length]. destruct b; lia.
Qed.

(** The read part of a write-read request, when every property it names is known (and stays
    known), is the same as the reads of a read request. *)
Lemma loop_reads_wr l : forall o o' rps n, do_loop do_read_wr o l = (o', Ok (rps, n)) ->
  (forall c, In c (map p_code l) -> has_property c o = true) ->
  (forall o1 op o2 r c, read_requested o1 op = (o2, r) -> has_property c o1 = true -> has_property c o2 = true) ->
  exists bs, reads o l o' rps bs /\ (n =? zlen l) = all_true bs /\ 0 <= n <= zlen l.
Proof.
  induction l as [|mp l IH]; intros o o' rps n; cbn [do_loop].
  - intros [= <- <- <-] _ _. exists []. split; [constructor|]. split; [reflexivity|]. unfold zlen; cbn; lia.
  - destruct (do_read_wr o mp) as [o1 [[rp b]|e]] eqn:E; [|discriminate].
    destruct (do_loop do_read_wr o1 l) as [o2 [[rps' n']|e]] eqn:E2; [|discriminate].
    intros [= <- <- <-] K M.
    assert (Hk : has_property (p_code mp) o = true) by (apply K; now left).
    assert (K1 : forall c, In c (map p_code l) -> has_property c o1 = true).
    { intros c Hc. assert (has_property c o = true) by (apply K; now right).
      unfold do_read_wr in E. destruct (read_requested o (get_property (p_code mp) o)) as [o1' r1] eqn:RR.
      apply (M _ _ _ _ c) in RR; [|assumption].
      destruct r1 as [[]|]; [|injection E as -> _ _; assumption|discriminate].
      destruct (get_property (p_code mp) o); [injection E as -> _ _; assumption|discriminate]. }
    destruct (IH _ _ _ _ E2 K1 M) as (bs & R & C & Bd).
    exists (b :: bs). split; [|split].
    + unfold do_read_wr, has_property in *. destruct (get_property (p_code mp) o) as [p|] eqn:G; [|discriminate].
      destruct (read_requested o (Some p)) as [o1' [[]|e]] eqn:RR; [| |discriminate];
          injection E as -> <- <-.
      * eapply reads_allowed; [exact G|exact RR| |exact R].
        unfold current. destruct (get_property (p_code mp) o1); reflexivity.
      * eapply reads_refused; eassumption.
    + unfold zlen in *. cbn [length all_true forallb]. fold (all_true bs). rewrite <- C. destruct b; cbn [andb]; lia.
    + unfold zlen in *. cbn [length]. destruct b; lia.
Qed.

Lemma L_C20_any_handler : forall o req o' told r, plain req -> m_ESV req = 0x62 ->
  o_handler o <> HNone ->
  obj_message_received o req = (o', told, r) ->
  (exists e, r = Err e) \/
  (exists rs bs, reads o (m_props req) o' rs bs /\
     r = Ok (Some (mkmsg (m_TID req) (m_DEOJ req) (m_SEOJ req) (if all_true bs then 0x72 else 0x52) rs [] [] None None))).
Proof.
  intros o req o' told r P E H. rewrite received_plain; [|assumption|now rewrite E|now rewrite E].
  rewrite plain_counts by (try assumption; now rewrite E).
  rewrite E. change (do_plain 0x62) with do_read.
  destruct (do_loop do_read o (m_props req)) as [o1 [[ps n]|e]] eqn:L; intros [= <- <- <-]; [right|left; eauto].
  destruct (loop_reads _ _ _ _ _ L) as (bs & R & C & _). exists ps, bs. split; [assumption|].
  rewrite C. destruct (all_true bs); reflexivity.
Qed.

Lemma quiet_read o p o1 r : quiet_reader (o_handler o) -> read_requested o p = (o1, r) ->
  o_props o1 = o_props o /\ o_handler o1 = o_handler o.
Proof.
  unfold read_requested, quiet_reader. destruct (o_handler o) as [| | |u] eqn:EH.
  - intros _ [= <- _]. auto.
  - destruct p; intros _ [= <- _]; auto.
  - destruct p; intros _ [= <- _]; auto.
  - intros Q. destruct (h_read u (o_calls o) (o_props o) p) as [ps r'] eqn:E. intros [= <- _].
    specialize (Q (o_calls o) (o_props o) p). rewrite E in Q. cbn in *. auto.
Qed.

Lemma reads_quiet o l o' rs bs : reads o l o' rs bs -> quiet_reader (o_handler o) ->
  o_props o' = o_props o /\ length bs = length l /\
  forall k mp, nth_error l k = Some mp ->
    exists b, nth_error bs k = Some b /\
    (b = true -> has_property (p_code mp) o = true) /\
    nth_error rs k = Some (mkprop (p_code mp)
      (if b then match get_property_data (p_code mp) o with Some d => d | None => [] end else [])).
Proof.
  intros R. induction R as [o|o mp l o' rs bs G R IH|o p o1 mp l o' rs bs G Q R IH|o p o1 mp l o' rs bs d G Q D R IH]; intros H.
  - split; [reflexivity|]. split; [reflexivity|]. intros [|k] mp; discriminate.
  - destruct (IH H) as (A & Lb & B). split; [assumption|]. split; [cbn; now rewrite Lb|].
    intros [|k] mp' E; [|exact (B k mp' E)]. injection E as <-. exists false. repeat split. discriminate.
  - destruct (quiet_read _ _ _ _ H Q) as (E1 & E2). rewrite <- E2 in H. destruct (IH H) as (A & Lb & B).
    split; [congruence|]. split; [cbn; now rewrite Lb|]. intros [|k] mp' E.
    + injection E as <-. exists false. repeat split. discriminate.
    + destruct (B k mp' E) as (b & B1 & B2 & B3). exists b. unfold has_property, get_property, get_property_data in *.
      rewrite E1 in *. auto.
  - destruct (quiet_read _ _ _ _ H Q) as (E1 & E2). rewrite <- E2 in H. destruct (IH H) as (A & Lb & B).
    split; [congruence|]. split; [cbn; now rewrite Lb|]. intros [|k] mp' E.
    + injection E as <-. exists true. split; [reflexivity|].
      unfold has_property, get_property, get_property_data in *. rewrite E1 in D. rewrite G in *. 
      split; [reflexivity|]. subst d. reflexivity.
    + destruct (B k mp' E) as (b & B1 & B2 & B3). exists b. unfold has_property, get_property, get_property_data in *.
      rewrite E1 in *. auto.
Qed.

Lemma L_C20_quiet_handler : forall o req o' told res, plain req -> m_ESV req = 0x62 ->
  quiet_reader (o_handler o) ->
  obj_message_received o req = (o', told, Ok (Some res)) ->
  o_props o' = o_props o /\
  exists bs : list bool, length bs = length (m_props req) /\
    m_ESV res = (if all_true bs then 0x72 else 0x52) /\
    forall k mp, nth_error (m_props req) k = Some mp ->
      exists b, nth_error bs k = Some b /\ (b = true -> has_property (p_code mp) o = true) /\
      nth_error (m_props res) k = Some (mkprop (p_code mp)
        (if b then match get_property_data (p_code mp) o with Some d => d | None => [] end else [])).
Proof.
  intros o req o' told res P E Q H.
  assert (HN : o_handler o <> HNone).
  { intros C. unfold obj_message_received in H. rewrite C in H. destruct (negb (is_request (m_ESV req))); discriminate. }
  destruct (L_C20_any_handler _ _ _ _ _ P E HN H) as [(e & X)|(rs & bs & R & X)]; [discriminate|].
  assert (X' : res = mkmsg (m_TID req) (m_DEOJ req) (m_SEOJ req) (if all_true bs then 0x72 else 0x52) rs [] [] None None) by congruence.
  subst res. destruct (reads_quiet _ _ _ _ _ R Q) as (A & Lb & B).
  split; [assumption|]. exists bs. split; [assumption|]. split; [reflexivity|]. exact B.
Qed.

(** ** C21 *)
Definition write_code_out (esv : Z) (ok : bool) : option Z :=
  if esv =? 0x61 then Some (if ok then 0x71 else 0x50) else if ok then None else Some 0x50.

Lemma write_response_esv esv b : esv = 0x60 \/ esv = 0x61 -> response_esv esv b = write_code_out esv b.
Proof. intros [-> | ->]; destruct b; reflexivity. Qed.

Lemma write_plain esv : esv = 0x60 \/ esv = 0x61 ->
  is_request esv = true /\ (esv =? 0x6E) = false /\ two_blocks esv = false /\ do_plain esv = do_write.
Proof. intros [-> | ->]; repeat split. Qed.

Lemma L_C21_builtin_write : forall o req, builtin (o_handler o) -> wf_obj o -> plain req ->
  m_ESV req = 0x60 \/ m_ESV req = 0x61 ->
  exists o' r, obj_message_received o req = (o', o_obs o, Ok r) /\
    written o (m_props req) o' /\
    (forall res, r = Some res -> m_props res = answers (write_answer o) (m_props req)) /\
    (r = None -> m_ESV req = 0x60 /\ all_accepted (write_answer o) (m_props req) = true).
Proof.
  intros o req B W P E. destruct (write_plain _ E) as (E1 & E2 & E3 & E4).
  rewrite received_plain; [|now apply builtin_not_none|assumption|assumption].
  rewrite plain_counts by assumption. rewrite E4.
  destruct (loop_write (m_props req) o B W) as (o' & L & Wr). rewrite L, count_all, write_response_esv by assumption.
  eexists o', _. split; [reflexivity|]. split; [assumption|]. split.
  - intros res. destruct (write_code_out _ _); [|discriminate]. intros [= <-]. reflexivity.
  - unfold write_code_out. destruct (Z.eqb_spec (m_ESV req) 0x61); [discriminate|].
    destruct (all_accepted _ _); [|discriminate]. intros _. split; [lia|reflexivity].
Qed.

Lemma L_C21_any_handler : forall o req o' told r, plain req ->
  m_ESV req = 0x60 \/ m_ESV req = 0x61 -> o_handler o <> HNone ->
  obj_message_received o req = (o', told, r) ->
  (exists e, r = Err e) \/
  (exists rs bs, writes o (m_props req) o' rs bs /\
     (r = Ok None \/ exists e, r = Ok (Some (mkmsg (m_TID req) (m_DEOJ req) (m_SEOJ req) e rs [] [] None None))) /\
     (r = Ok None -> m_ESV req = 0x60 /\ all_true bs = true)).
Proof.
  intros o req o' told r P E H. destruct (write_plain _ E) as (E1 & E2 & E3 & E4).
  rewrite received_plain by assumption. rewrite plain_counts by assumption. rewrite E4.
  destruct (do_loop do_write o (m_props req)) as [o1 [[ps n]|e]] eqn:L; intros [= <- <- <-]; [right|left; eauto].
  destruct (loop_writes _ _ _ _ _ L) as (bs & R & C & _). exists ps, bs. split; [assumption|].
  rewrite C, write_response_esv by assumption. unfold write_code_out.
  destruct (Z.eqb_spec (m_ESV req) 0x61).
  - split; [right; eexists; reflexivity|discriminate].
  - destruct (all_true bs).
    + split; [now left|]. intros _. split; [lia|reflexivity].
    + split; [right; eexists; reflexivity|discriminate].
Qed.

(** ** C22 *)
Lemma L_C22_write_read_refuted : exists o req, builtin (o_handler o) /\ wf_obj o /\ plain req /\
  m_ESV req = 0x6E /\ snd (obj_message_received o req) = Err AttributeError.
Proof.
  exists (new_super_object (PInt 0x029101)),
    (mkmsg 1 0x0EF001 0x029101 0x6E [] [] [mkprop 0x80 []] None None).
  split; [now left|]. split; [intros c p; discriminate|]. repeat split.
Qed.

Lemma L_C22_write_read_partial : forall o req, builtin (o_handler o) -> wf_obj o -> plain req ->
  m_ESV req = 0x6E ->
  exists o', written o (m_sets req) o' /\
    obj_message_received o req =
      (o', o_obs o,
       if forallb (fun mp => has_property (p_code mp) o) (m_gets req) then
         Ok (Some (mkmsg (m_TID req) (m_DEOJ req) (m_SEOJ req)
              (if all_accepted (write_answer o) (m_sets req) && all_accepted (read_answer o) (m_gets req)
               then 0x7E else 0x5E)
              [] (answers (write_answer o) (m_sets req)) (answers (read_answer o') (m_gets req)) None None))
       else Err AttributeError).
Proof.
  intros o req B W P E. rewrite received_wr; [|now apply builtin_not_none|assumption].
  rewrite plain_counts2 by (try assumption; now rewrite E).
  destruct (loop_write (m_sets req) o B W) as (o' & L & Wr). rewrite L. exists o'. split; [assumption|].
  rewrite loop_read_wr; [|now rewrite (written_handler _ _ _ Wr)|exact (written_wf _ _ _ Wr W)].
  replace (forallb (fun mp => has_property (p_code mp) o') (m_gets req))
    with (forallb (fun mp => has_property (p_code mp) o) (m_gets req)).
  2:{ clear -Wr. induction (m_gets req) as [|mp l IH]; [reflexivity|]. cbn [forallb]. now rewrite IH, (written_has _ _ _ _ Wr). }
  destruct (forallb _ (m_gets req)); [|reflexivity].
  rewrite (count_ext (read_answer o') (read_answer o)) by (intros; exact (written_read_snd _ _ _ _ Wr)).
  rewrite <- !count_all. pose proof (count_bounds (write_answer o) (m_sets req)).
  pose proof (count_bounds (read_answer o) (m_gets req)).
  replace (count (write_answer o) (m_sets req) + count (read_answer o) (m_gets req) =? zlen (m_sets req) + zlen (m_gets req))
    with ((count (write_answer o) (m_sets req) =? zlen (m_sets req)) && (count (read_answer o) (m_gets req) =? zlen (m_gets req))) by lia.
  reflexivity.
Qed.

(** ** C23 *)
Lemma L_C23_codes_refuted : exists o req, builtin (o_handler o) /\ wf_obj o /\ plain req /\
  m_ESV req = 0x61 /\ request_ok o req = false /\
  exists res, snd (obj_message_received o req) = Ok (Some res) /\ m_ESV res = 0x50 /\
    error_service 0x61 = Some 0x51.
Proof.
  exists (new_super_object (PInt 0x029101)),
    (mkmsg 1 0x0EF001 0x029101 0x61 [mkprop 0x80 [0x30]] [] [] None None).
  split; [now left|]. split; [intros c p; discriminate|]. repeat split.
  eexists. repeat split.
Qed.

Lemma L_C23_codes_partial : forall o req o' told r, builtin (o_handler o) -> wf_obj o -> plain req ->
  In (m_ESV req) [0x60; 0x61; 0x62; 0x6E] ->
  obj_message_received o req = (o', told, Ok r) ->
  option_map m_ESV r =
    if request_ok o req then ok_service (m_ESV req)
    else if m_ESV req =? 0x61 then Some 0x50 else error_service (m_ESV req).
Proof.
  intros o req o' told r B W P I H.
  assert (I' : (m_ESV req = 0x60 \/ m_ESV req = 0x61) \/ m_ESV req = 0x62 \/ m_ESV req = 0x6E) by (cbn in I; lia).
  destruct I' as [E|[E|E]].
  - destruct (write_plain _ E) as (E1 & E2 & E3 & E4).
    rewrite received_plain in H; [|now apply builtin_not_none|assumption|assumption].
    rewrite plain_counts, E4 in H by assumption.
    destruct (loop_write (m_props req) o B W) as (o1 & L & Wr). rewrite L, count_all, write_response_esv in H by assumption.
    injection H as <- <- <-. unfold request_ok, write_code_out, ok_service, error_service.
    destruct E as [-> | ->]; cbn -[all_accepted]; destruct (all_accepted _ _); reflexivity.
  - rewrite L_C20_builtin_read in H by assumption. injection H as <- <- <-. unfold request_ok.
    rewrite E. cbn -[all_accepted]. destruct (all_accepted _ _); reflexivity.
  - destruct (L_C22_write_read_partial o req B W P E) as (o1 & Wr & X). rewrite X in H.
    destruct (forallb _ (m_gets req)); [|discriminate]. injection H as <- <- <-. unfold request_ok.
    rewrite E. cbn -[all_accepted]. destruct (all_accepted _ _ && all_accepted _ _); reflexivity.
Qed.

Lemma L_C23_codes_any_handler_partial : forall o req o' told r, o_handler o <> HNone -> plain req ->
  obj_message_received o req = (o', told, Ok r) ->
  (m_ESV req = 0x62 -> exists rs bs, reads o (m_props req) o' rs bs /\
     option_map m_ESV r = Some (if all_true bs then 0x72 else 0x52)) /\
  (m_ESV req = 0x61 -> exists rs bs, writes o (m_props req) o' rs bs /\
     option_map m_ESV r = Some (if all_true bs then 0x71 else 0x50)) /\
  (m_ESV req = 0x60 -> exists rs bs, writes o (m_props req) o' rs bs /\
     option_map m_ESV r = if all_true bs then None else Some 0x50).
Proof.
  intros o req o' told r HN P H. split; [|split].
  - intros E. destruct (L_C20_any_handler _ _ _ _ _ P E HN H) as [(e & X)|(rs & bs & R & X)]; [discriminate|].
    exists rs, bs. split; [assumption|]. injection X as ->. reflexivity.
  - intros E. destruct (write_plain _ (or_intror E)) as (E1 & E2 & E3 & E4).
    rewrite received_plain, plain_counts, E4 in H by assumption.
    destruct (do_loop do_write o (m_props req)) as [o1 [[ps n]|e]] eqn:L; [|discriminate].
    destruct (loop_writes _ _ _ _ _ L) as (bs & R & C & _).
    rewrite C, write_response_esv in H by auto. injection H as <- <- <-. exists ps, bs. split; [assumption|].
    rewrite E. cbn -[all_true]. reflexivity.
  - intros E. destruct (write_plain _ (or_introl E)) as (E1 & E2 & E3 & E4).
    rewrite received_plain, plain_counts, E4 in H by assumption.
    destruct (do_loop do_write o (m_props req)) as [o1 [[ps n]|e]] eqn:L; [|discriminate].
    destruct (loop_writes _ _ _ _ _ L) as (bs & R & C & _).
    rewrite C, write_response_esv in H by auto. injection H as <- <- <-. exists ps, bs. split; [assumption|].
    rewrite E. cbn -[all_true]. destruct (all_true bs); reflexivity.
Qed.

(** ** C24, C25 *)
Lemma skip_response o req : o_handler o <> HNone -> plain req ->
  m_ESV req = 0x63 \/ m_ESV req = 0x74 ->
  obj_message_received o req =
    (o, o_obs o, Ok (option_map (fun e => resp_of req e (answers (fun _ => ([], false)) (m_props req)) [] [])
       (response_esv (m_ESV req) (match m_props req with [] => true | _ => false end)))).
Proof.
  intros HN P E.
  assert (X : is_request (m_ESV req) = true /\ (m_ESV req =? 0x6E) = false /\ two_blocks (m_ESV req) = false /\ do_plain (m_ESV req) = do_skip).
  { destruct E as [-> | ->]; repeat split. }
  destruct X as (E1 & E2 & E3 & E4).
  rewrite received_plain, plain_counts, E4, loop_skip by assumption.
  replace (0 =? zlen (m_props req)) with (match m_props req with [] => true | _ => false end); [reflexivity|].
  destruct (m_props req); [reflexivity|]. unfold zlen. cbn [length]. lia.
Qed.

Lemma L_C24_notification_request_refuted : exists o req, builtin (o_handler o) /\ wf_obj o /\ plain req /\
  m_ESV req = 0x63 /\ all_accepted (read_answer o) (m_props req) = true /\
  exists res, snd (obj_message_received o req) = Ok (Some res) /\ m_ESV res = 0x53.
Proof.
  exists (set_o_props [(0x80, mkoprop 0x80 [0x30] 1 0 0)] (new_super_object (PInt 0x029101))),
    (mkmsg 1 0x0EF001 0x029101 0x63 [mkprop 0x80 []] [] [] None None).
  split; [now left|]. split.
  { intros c p. unfold get_property. cbn [o_props set_o_props dget]. destruct (Z.eqb_spec c 0x80); [|discriminate]. intros [= <-]. auto. }
  repeat split. eexists. repeat split.
Qed.

Lemma L_C24_notification_request_partial : forall o req, o_handler o <> HNone -> plain req ->
  m_ESV req = 0x63 ->
  obj_message_received o req =
    (o, o_obs o, Ok (Some (mkmsg (m_TID req) (m_DEOJ req) (m_SEOJ req)
       (match m_props req with [] => 0x73 | _ => 0x53 end)
       (map (fun mp => mkprop (p_code mp) []) (m_props req)) [] [] None None))).
Proof.
  intros o req HN P E. rewrite skip_response by auto. rewrite E.
  destruct (m_props req); reflexivity.
Qed.

Lemma L_C25_acknowledge_refuted : exists o req, builtin (o_handler o) /\ wf_obj o /\ plain req /\
  m_ESV req = 0x74 /\ snd (obj_message_received o req) = Ok None.
Proof.
  exists (new_super_object (PInt 0x029101)),
    (mkmsg 1 0x0EF001 0x029101 0x74 [mkprop 0x80 [0x30]] [] [] None None).
  split; [now left|]. split; [intros c p; discriminate|]. repeat split.
Qed.

Lemma L_C25_acknowledge_partial : forall o req, o_handler o <> HNone -> plain req ->
  m_ESV req = 0x74 ->
  obj_message_received o req =
    (o, o_obs o, Ok (match m_props req with
       | [] => Some (mkmsg (m_TID req) (m_DEOJ req) (m_SEOJ req) 0x7A [] [] [] None None)
       | _ => None end)).
Proof.
  intros o req HN P E. rewrite skip_response by auto. rewrite E. destruct (m_props req); reflexivity.
Qed.

(** ** C26 *)
Lemma L_C26_no_answer : forall o m,
  (~ In (m_ESV m) [0x60; 0x61; 0x62; 0x63; 0x6E; 0x74] \/ o_handler o = HNone) ->
  obj_message_received o m = (o, o_obs o, Ok None).
Proof.
  intros o m [H|H]; unfold obj_message_received.
  - replace (is_request (m_ESV m)) with false; [reflexivity|]. symmetry. apply not_true_is_false. intros C. apply H.
    unfold is_request, WRITE_REQUEST, WRITE_REQUEST_RESPONSE_REQUIRED, READ_REQUEST, NOTIFICATION_REQUEST,
      WRITE_READ_REQUEST, NOTIFICATION_RESPONSE_REQUIRED in C. cbn [In].
    repeat match type of C with (if ?a =? ?b then _ else _) = true => destruct (Z.eqb_spec a b); [lia|] end.
    discriminate.
  - rewrite H. destruct (negb (is_request (m_ESV m))); reflexivity.
Qed.

(** ** C27 *)

(** One processed message, built-in handler: only permitted writes happen. *)
Lemma builtin_step o m : builtin (o_handler o) -> wf_obj o ->
  exists l, written o l (obj_step o m).
Proof.
  intros B W. unfold obj_step. destruct (is_request (m_ESV m)) eqn:R.
  2:{ exists []. unfold obj_message_received. rewrite R. cbn [negb fst]. apply written_refl. }
  destruct (Z.eqb_spec (m_ESV m) 0x6E) as [E|E].
  - rewrite received_wr by (try assumption; now apply builtin_not_none).
    destruct (loop_write (m_sets m) o B W) as (o' & L & Wr). rewrite L.
    rewrite loop_read_wr; [|now rewrite (written_handler _ _ _ Wr)|exact (written_wf _ _ _ Wr W)].
    exists (m_sets m). destruct (forallb _ (m_gets m)); exact Wr.
  - rewrite received_plain; [|now apply builtin_not_none|assumption|lia].
    unfold do_plain. destruct (is_read_request (m_ESV m)).
    + rewrite loop_read by assumption. exists []. apply written_refl.
    + destruct (is_write_request (m_ESV m)).
      * destruct (loop_write (m_props m) o B W) as (o' & L & Wr). rewrite L. exists (m_props m). exact Wr.
      * rewrite loop_skip. exists []. apply written_refl.
Qed.

Lemma builtin_run ms : forall o, builtin (o_handler o) -> wf_obj o -> exists l, written o l (obj_run o ms).
Proof.
  induction ms as [|m ms IH]; intros o B W; [exists []; apply written_refl|].
  destruct (builtin_step o m B W) as (l1 & W1). cbn [obj_run fold_left]. fold (obj_run (obj_step o m) ms).
  destruct (IH (obj_step o m)) as (l2 & W2).
  { now rewrite (written_handler _ _ _ W1). } { exact (written_wf _ _ _ W1 W). }
  exists (l1 ++ l2). exact (written_trans _ _ _ _ _ W1 W2).
Qed.

Lemma L_C27_write_prohibited : forall o ms c p, builtin (o_handler o) -> wf_obj o ->
  get_property c o = Some p -> can_write p = false ->
  get_property c (obj_run o ms) = Some p.
Proof.
  intros o ms c p B W G C. destruct (builtin_run ms o B W) as (l & _ & _ & K).
  rewrite K, G. replace (may_write (o_handler o) p) with false; [reflexivity|].
  unfold may_write. destruct (o_handler o); auto.
Qed.

(** Attributes, codes, handler and the set of properties never change. *)
Lemma L_C27_attributes_kept : forall o ms, builtin (o_handler o) -> wf_obj o ->
  o_handler (obj_run o ms) = o_handler o /\ o_code (obj_run o ms) = o_code o /\
  dkeys (o_props (obj_run o ms)) = dkeys (o_props o) /\ wf_obj (obj_run o ms) /\
  forall c p, get_property c o = Some p ->
    exists d, get_property c (obj_run o ms) = Some (set_op_data d p).
Proof.
  intros o ms B W. destruct (builtin_run ms o B W) as (l & Wr). pose proof Wr as (F & K & G).
  rewrite (written_handler _ _ _ Wr). split; [reflexivity|]. split; [rewrite F; reflexivity|]. split; [assumption|].
  split; [exact (written_wf _ _ _ Wr W)|]. intros c p H. rewrite G, H.
  assert (I : Some p = Some (set_op_data (op_data p) p)) by (destruct p; reflexivity).
  destruct (may_write (o_handler o) p); [destruct (last_data c l)|]; eauto.
Qed.

(** Non-interference: the data of unreadable properties influences no response. *)
Lemma secret_get o o' c : secret_eq o o' ->
  match get_property c o, get_property c o' with
  | Some p, Some q => p = q \/ (can_read p = false /\ q = set_op_data (op_data q) p)
  | None, None => True
  | _, _ => False
  end.
Proof.
  intros (_ & F). unfold get_property.
  induction F as [|[k p] [k' q] l l' (E & V) F IH]; cbn [dget]; [exact I|].
  cbn [fst snd] in *. subst k'. destruct (c =? k); [|apply IH]. tauto.
Qed.

Lemma secret_handler o o' : secret_eq o o' -> o_handler o' = o_handler o.
Proof. intros (E & _). rewrite E. reflexivity. Qed.

Lemma secret_wf o o' : secret_eq o o' -> wf_obj o -> wf_obj o'.
Proof.
  intros S W c q G. pose proof (secret_get o o' c S) as K. rewrite G in K.
  destruct (get_property c o) as [p|] eqn:E; [|contradiction].
  destruct K as [<-|(_ & ->)]; exact (W c p E).
Qed.

Lemma secret_read o o' mp : secret_eq o o' -> read_answer o' mp = read_answer o mp.
Proof.
  intros S. unfold read_answer. pose proof (secret_get o o' (p_code mp) S) as K.
  destruct (get_property (p_code mp) o) as [p|], (get_property (p_code mp) o') as [q|]; try contradiction; [|reflexivity].
  destruct K as [<-|(C & ->)]; [reflexivity|]. change (can_read (set_op_data (op_data q) p)) with (can_read p).
  rewrite C. reflexivity.
Qed.
Lemma secret_write o o' mp : secret_eq o o' -> write_answer o' mp = write_answer o mp.
Proof.
  intros S. unfold write_answer. rewrite (secret_handler _ _ S). pose proof (secret_get o o' (p_code mp) S) as K.
  destruct (get_property (p_code mp) o) as [p|], (get_property (p_code mp) o') as [q|]; try contradiction; [|reflexivity].
  destruct K as [<-|(C & ->)]; reflexivity.
Qed.
Lemma secret_has o o' c : secret_eq o o' -> has_property c o' = has_property c o.
Proof.
  intros S. unfold has_property. pose proof (secret_get o o' c S) as K.
  destruct (get_property c o), (get_property c o'); try contradiction; reflexivity.
Qed.

Lemma secret_store o o' c d : secret_eq o o' -> secret_eq (store c d o) (store c d o').
Proof.
  intros S. pose proof (secret_get o o' c S) as K. destruct S as (E & F).
  unfold store, set_property_data.
  destruct (get_property c o) as [p|] eqn:G, (get_property c o') as [q|] eqn:G'; try contradiction; cbn [fst]; [|now split].
  split.
  - cbn [o_props set_o_props]. rewrite E at 2. destruct o; reflexivity.
  - cbn [o_props set_o_props].
    assert (Epq : set_op_data d q = set_op_data d p) by (destruct K as [->|(_ & ->)]; reflexivity).
    rewrite Epq. revert F. generalize (o_props o), (o_props o'). intros l l' F.
    induction F as [|[k a] [k' b] l l' (E' & V) F IH]; cbn [dset].
    + apply Forall2_cons; [|apply Forall2_nil]. cbn. auto.
    + cbn [fst snd] in E'. subst k'. destruct (c =? k).
      * apply Forall2_cons; [cbn; auto|assumption].
      * apply Forall2_cons; [cbn; auto|assumption].
Qed.

Lemma secret_loop_write l : forall o o', secret_eq o o' -> builtin (o_handler o) -> wf_obj o ->
  exists o1 o1' r, do_loop do_write o l = (o1, Ok r) /\ do_loop do_write o' l = (o1', Ok r) /\ secret_eq o1 o1'.
Proof.
  induction l as [|mp l IH]; intros o o' S B W.
  - exists o, o', ([], 0). auto.
  - cbn [do_loop]. rewrite (do_write_builtin o mp B W).
    rewrite do_write_builtin; [|now rewrite (secret_handler _ _ S)|now apply (secret_wf o)].
    rewrite (secret_write o o' mp S).
    assert (S1 : secret_eq (apply_write o mp) (apply_write o' mp)).
    { unfold apply_write. rewrite (secret_write o o' mp S). destruct (snd (write_answer o mp)); [now apply secret_store|assumption]. }
    destruct (IH _ _ S1) as (o1 & o1' & [ps n] & E1 & E2 & S2).
    { now rewrite apply_write_handler. } { now apply apply_write_wf. }
    rewrite E1, E2. eexists o1, o1', _. split; [reflexivity|]. split; [reflexivity|assumption].
Qed.

Lemma secret_step o o' m : secret_eq o o' -> builtin (o_handler o) -> wf_obj o ->
  secret_eq (obj_step o m) (obj_step o' m) /\
  snd (obj_message_received o m) = snd (obj_message_received o' m).
Proof.
  intros S B W. pose proof (secret_handler _ _ S) as H. pose proof (secret_wf _ _ S W) as W'.
  assert (B' : builtin (o_handler o')) by (now rewrite H).
  unfold obj_step. destruct (is_request (m_ESV m)) eqn:R.
  2:{ unfold obj_message_received. rewrite R. cbn. auto. }
  assert (HR : forall l, answers (read_answer o') l = answers (read_answer o) l).
  { intros l. apply answers_ext. intros. now rewrite (secret_read o o'). }
  assert (HC : forall l, count (read_answer o') l = count (read_answer o) l).
  { intros l. apply count_ext. intros. now rewrite (secret_read o o'). }
  destruct (Z.eqb_spec (m_ESV m) 0x6E) as [E|E].
  - rewrite !received_wr by (try assumption; now apply builtin_not_none).
    destruct (loop_write (m_sets m) o B W) as (o1 & L & Wr).
    destruct (loop_write (m_sets m) o' B' W') as (o1' & L' & Wr').
    destruct (secret_loop_write (m_sets m) o o' S B W) as (o2 & o2' & r & E1 & E2 & S2).
    rewrite E1, E2. assert (o1 = o2) by congruence. assert (o1' = o2') by congruence. subst o2 o2'.
    destruct r as [ss n].
    rewrite !loop_read_wr; try (rewrite ?(written_handler _ _ _ Wr), ?(written_handler _ _ _ Wr'); assumption);
      try exact (written_wf _ _ _ Wr W); try exact (written_wf _ _ _ Wr' W').
    replace (forallb (fun mp => has_property (p_code mp) o1') (m_gets m))
      with (forallb (fun mp => has_property (p_code mp) o1) (m_gets m)).
    2:{ clear -S2. induction (m_gets m) as [|mp l IH]; [reflexivity|]. cbn [forallb]. now rewrite IH, (secret_has _ _ _ S2). }
    destruct (forallb _ (m_gets m)); cbn [fst snd]; [|auto]. split; [assumption|].
    rewrite (answers_ext (read_answer o1') (read_answer o1)) by (intros; now rewrite (secret_read _ _ _ S2)).
    rewrite (count_ext (read_answer o1') (read_answer o1)) by (intros; now rewrite (secret_read _ _ _ S2)).
    reflexivity.
  - rewrite !received_plain; try assumption; try lia; try (now apply builtin_not_none).
    unfold do_plain. destruct (is_read_request (m_ESV m)).
    + rewrite !loop_read by assumption. rewrite HR, HC. cbn [fst snd]. auto.
    + destruct (is_write_request (m_ESV m)).
      * destruct (secret_loop_write (m_props m) o o' S B W) as (o2 & o2' & [ps n] & E1 & E2 & S2).
        rewrite E1, E2. cbn [fst snd]. auto.
      * rewrite !loop_skip. cbn [fst snd]. auto.
Qed.

Lemma L_C27_read_prohibited : forall ms o o', secret_eq o o' -> builtin (o_handler o) -> wf_obj o ->
  obj_outs o ms = obj_outs o' ms /\ secret_eq (obj_run o ms) (obj_run o' ms).
Proof.
  induction ms as [|m ms IH]; intros o o' S B W; [cbn; auto|].
  destruct (secret_step o o' m S B W) as (S1 & E).
  cbn [obj_outs obj_run fold_left]. rewrite E. fold (obj_run (obj_step o m) ms) (obj_run (obj_step o' m) ms).
  destruct (builtin_step o m B W) as (l & Wr).
  destruct (IH _ _ S1) as (A & C); [now rewrite (written_handler _ _ _ Wr)|exact (written_wf _ _ _ Wr W)|].
  rewrite A. auto.
Qed.

(** ** C28 *)
Lemma readonly_written o l o' : o_handler o = HReadOnly -> written o l o' -> NoDup (dkeys (o_props o)) -> o' = o.
Proof.
  intros H (F & K & G) N. rewrite F. replace (o_props o') with (o_props o); [destruct o; reflexivity|].
  assert (X : forall c, zget c (o_props o') = zget c (o_props o)).
  { intros c. specialize (G c). unfold get_property in G. rewrite G, H. cbn [may_write]. destruct (zget c (o_props o)); reflexivity. }
  clear -X K N. revert K N X. generalize (o_props o), (o_props o'). intros l l'.
  revert l'; induction l as [|[k p] l IH]; intros [|[k' p'] l'] K N X; try discriminate; [reflexivity|].
  cbn [dkeys map fst] in K, N. injection K as -> K. inversion N as [|? ? Hk N']; subst.
  assert (p' = p) as ->.
  { specialize (X k). cbn [dget] in X. rewrite Z.eqb_refl in X. congruence. }
  f_equal. apply IH; auto. intros c. specialize (X c). cbn [dget] in X.
  destruct (Z.eqb_spec c k) as [Ec|]; [|assumption]. rewrite Ec. clear X.
  fold (dkeys l) in Hk, K. fold (dkeys l') in K.
  assert (zget k l = None) by (now apply zget_none).
  assert (zget k l' = None) by (apply zget_none; unfold dkeys in *; rewrite K; assumption). congruence.
Qed.

Lemma L_C28_no_change : forall o ms, o_handler o = HReadOnly -> wf_obj o -> NoDup (dkeys (o_props o)) ->
  obj_run o ms = o.
Proof.
  intros o ms H W N. destruct (builtin_run ms o (or_intror H) W) as (l & Wr).
  exact (readonly_written _ _ _ H Wr N).
Qed.

Lemma L_C28_refuses : forall o req, o_handler o = HReadOnly -> wf_obj o -> plain req ->
  ((m_ESV req = 0x60 \/ m_ESV req = 0x61) -> m_props req <> [] ->
     exists res, snd (obj_message_received o req) = Ok (Some res) /\ m_ESV res = 0x50) /\
  (m_ESV req = 0x6E -> m_sets req <> [] ->
     forall res, snd (obj_message_received o req) = Ok res ->
       exists r, res = Some r /\ m_ESV r = 0x5E) /\
  (m_ESV req = 0x6E -> (forall mp, In mp (m_gets req) -> has_property (p_code mp) o = true) ->
     exists res, snd (obj_message_received o req) = Ok res).
Proof.
  intros o req H W P.
  assert (NA : forall l, l <> [] -> all_accepted (write_answer o) l = false).
  { intros [|mp l] Hl; [contradiction|]. unfold all_accepted. cbn [forallb]. 
    unfold write_answer at 1. destruct (get_property (p_code mp) o); [rewrite H|]; reflexivity. }
  split; [|split].
  - intros E Hp. destruct (write_plain _ E) as (E1 & E2 & E3 & E4).
    assert (B : builtin (o_handler o)) by (right; assumption).
    rewrite received_plain; [|now apply builtin_not_none|assumption|assumption].
    rewrite plain_counts by assumption. rewrite E4.
    destruct (loop_write (m_props req) o B W) as (o' & L & Wr). rewrite L, count_all, write_response_esv, NA by assumption.
    unfold write_code_out. destruct (m_ESV req =? 0x61); eexists; split; reflexivity.
  - intros E Hs res. destruct (L_C22_write_read_partial o req (or_intror H) W P E) as (o' & _ & X). rewrite X.
    cbn [snd]. destruct (forallb _ _); [|discriminate]. intros [= <-]. rewrite NA by assumption.
    eexists. split; reflexivity.
  - intros E K. destruct (L_C22_write_read_partial o req (or_intror H) W P E) as (o' & _ & X). rewrite X.
    cbn [snd]. replace (forallb (fun mp => has_property (p_code mp) o) (m_gets req)) with true; [eexists; reflexivity|].
    symmetry. apply forallb_forall. exact K.
Qed.
