(** Lemmas that complete C15, C16, C32, C43, C59, C60, C73 and C84: what the code does in the cases left out there. *)
From Coq Require Import Decimal DecimalString.
From Verif Require Import PyBase BytesM EsvM MsgM PropM ObjM DbData DbM NodeM LocalM CtrlM RestM
  SpecWire SpecObj SpecMap SpecReq SpecNode SpecProf SpecLocal SpecSrv SpecHex SpecExact SpecOutc SpecBits ToolM SpecTool DictP BytesP WireP CodecP ObjP MapP ReqP NodeP ProfP LocalP AnswerP SrvP RestP ToolP ExactP GapP OutcP.
Require Import ZifyBool.

(** ** C15, C16 *)
Lemma map2_bit m i j : (forall c, In c m -> 0x80 <= c < 0x100) -> (i < 16)%nat -> 0 <= j ->
  (Z.testbit (nth i (map2_encode m) 0) j = true <-> j < 4 /\ In (0x80 + 0x10 * j + Z.of_nat i) m).
Proof.
  intros R Hi Hj. rewrite map2_encode_testbit by assumption. rewrite existsb_exists. split.
  - intros (c & Hc & E). pose proof (R c Hc). unfold enc_idx, enc_bit in E.
    rewrite !andb_true_iff in E. destruct E as (E1 & E2 & E3). apply Nat.eqb_eq in E1. apply Z.eqb_eq in E2. apply Z.ltb_lt in E3.
    split; [exact E3|]. replace (0x80 + 0x10 * j + Z.of_nat i) with c; [exact Hc|]. subst i j.
    rewrite (Z.mod_small ((c - 128) / 16) 16) by (Z.div_mod_to_equations; lia). rewrite Z2Nat.id by (Z.div_mod_to_equations; lia). Z.div_mod_to_equations. lia.
  - intros (L & I). eexists. split; [exact I|]. unfold enc_idx, enc_bit.
    replace ((128 + 16 * j + Z.of_nat i) mod 16) with (Z.of_nat i) by (Z.div_mod_to_equations; lia).
    replace ((128 + 16 * j + Z.of_nat i - 128) / 16) with j by (Z.div_mod_to_equations; lia).
    rewrite (Z.mod_small j 16) by lia. rewrite Nat2Z.id. rewrite Nat.eqb_refl, Z.eqb_refl. replace (j <? 4) with true by lia. reflexivity.
Qed.

Lemma L_C15_exact : forall (PS : PySet) a ps, adds_ok ps ->
  exists o, add_all ps (new_super_object a) = (o, Ok true) /\
    forall mc f m, In (mc, f) map_kinds -> describes m f ps -> (length m <= 15)%nat ->
      exists l, describes l f ps /\ get_property_data mc o = Some (zlen m :: l) /\ property_map_codes (zlen m :: l) = MapCodes l.
Proof.
  intros PS a ps H. destruct (maps_final PS a ps H) as (o & E & K). exists o. split; [assumption|].
  intros mc f m Hk Dm Lm. destruct (K mc f Hk) as (l & D & G & R). exists l. split; [exact D|].
  pose proof (describes_length _ _ _ _ Dm D) as L. assert (Z1 : zlen m = zlen l) by (unfold zlen; lia). rewrite Z1.
  unfold map_data, is_format1, PROPERTYMAP_FORMAT1_MAX_SIZE in G. replace (zlen l <=? 15) with true in G by (unfold zlen; lia).
  split; [exact G|]. apply decode1. lia.
Qed.

Lemma L_C16_exact : forall (PS : PySet) a ps, adds_ok ps ->
  exists o, add_all ps (new_super_object a) = (o, Ok true) /\
    forall mc f m, In (mc, f) map_kinds -> describes m f ps -> (16 <= length m)%nat ->
      exists bm, get_property_data mc o = Some (16 :: bm) /\ length bm = 16%nat /\ bytes_ok bm /\
        (forall i j, (i < 16)%nat -> 0 <= j ->
           (Z.testbit (nth i bm 0) j = true <-> j < 4 /\ In (0x80 + 0x10 * j + Z.of_nat i) m)) /\
        property_map_codes (16 :: bm) = MapCodes (firstn 16 (low_codes bm) ++ repeat 0 (16 - length (low_codes bm))).
Proof.
  intros PS a ps H. destruct (maps_final PS a ps H) as (o & E & K). exists o. split; [assumption|].
  intros mc f m Hk Dm Lm. destruct (K mc f Hk) as (l & D & G & R).
  pose proof (describes_length _ _ _ _ Dm D) as L. rewrite map_data2 in G by lia.
  exists (map2_encode l). split; [exact G|]. split; [apply map2_encode_length|]. split; [apply map2_encode_byte|]. split.
  - intros i j Hi Hj. rewrite (map2_bit l i j R Hi Hj). destruct D as (_ & I). destruct Dm as (_ & Im). rewrite I, Im. reflexivity.
  - apply (L_C17_exact 16); [lia|apply map2_encode_length].
Qed.

(** ** C32, C59 *)
Lemma sends_fields (PS : PySet) w tr s a m s' tr' r : received_from a m -> node_received w tr s m = (s', tr', r) ->
  0 <= g_tid (ln_mgr s) <= 65535 ->
  exists evs, tr' = tr ++ evs /\ forall x, In x (sent evs) ->
    slice (send_bytes x) 2 4 = be 2 (if m_TID m =? 0 then g_tid (ln_mgr s) mod 65535 + 1 else m_TID m) /\
    slice (send_bytes x) 4 7 = be 3 (match ln_ctl s with None => m_DEOJ m | Some _ => 0x0EF001 end).
Proof.
  intros Hm H Tg. destruct (node_sends PS w tr s a m s' tr' r Hm H) as (evs & -> & _ & K & _). exists evs. split; [reflexivity|].
  intros x Hx. destruct K as [K|(o & o' & told & rsp & b & Z & O & _ & S & M & _)]; [rewrite K in Hx; destruct Hx|].
  assert (B : send_bytes x = b).
  { unfold by_mode in M. destruct (m_ESV rsp =? 0x73); [exact (proj1 (casts_all _ _ _ _ M x Hx))|exact (proj1 (tries_all _ _ _ _ M x Hx))]. }
  rewrite B. destruct S as (g' & t & S & ->). destruct (L_C18_correlation _ _ _ _ _ O) as (T1 & T2 & T3).
  rewrite <- (app_nil_r (wire _)). rewrite slice_tid, slice_seoj. replace (m_TID (set_TID t (set_SEOJ (source s rsp) rsp))) with t by (destruct rsp; reflexivity).
  replace (m_SEOJ (set_TID t (set_SEOJ (source s rsp) rsp))) with (source s rsp) by (destruct rsp; reflexivity). split.
  - f_equal. unfold stamped in S. destruct (m_TID m =? 0); [|exact (proj2 S)].
    destruct (next_TID_mod (ln_mgr s) Tg) as (N1 & _). rewrite <- S in N1. exact N1.
  - unfold source. destruct (ln_ctl s); [reflexivity|]. now rewrite T3.
Qed.

Lemma L_C32_exact : forall (PS : PySet) w tr s a d f s' tr' r, bytes_ok d -> parse_bytes new_msg d = (f, Ok true) ->
  0 <= g_tid (ln_mgr s) <= 65535 -> slice d 2 4 = [0; 0] ->
  node_received w tr s (set_from (Some a) f) = (s', tr', r) ->
  exists evs, tr' = tr ++ evs /\ forall x, In x (sent evs) ->
    slice (send_bytes x) 2 4 = be 2 (g_tid (ln_mgr s) mod 65535 + 1) /\ slice (send_bytes x) 2 4 <> slice d 2 4.
Proof.
  intros PS w tr s a d f s' tr' r B P Tg N H. destruct (parsed_received d f a B P) as (Hm & tail & E).
  destruct (sends_fields PS w tr s a _ s' tr' r Hm H Tg) as (evs & -> & K). exists evs. split; [reflexivity|].
  intros x Hx. destruct (K x Hx) as (K1 & _). cbn [m_TID set_from] in K1. pose proof N as N0. rewrite E, slice_tid in N.
  assert (T0 : m_TID f = 0).
  { destruct (parse_new_inv _ _ B P) as ((_ & _ & CF) & _). rewrite be2 in N. injection N as A1 A2. rewrite <- CF in A1, A2 |- *. cbn [carried m_TID] in *.
    Z.div_mod_to_equations. lia. }
  rewrite T0 in K1. cbn [Z.eqb] in K1. split; [exact K1|]. rewrite K1, N0, be2. pose proof (Z.mod_pos_bound (g_tid (ln_mgr s)) 65535). intros Q. injection Q as Q1 Q2. Z.div_mod_to_equations. lia.
Qed.

Lemma L_C59_exact : forall (PS : PySet) w tr s a d f s' tr' r, bytes_ok d -> parse_bytes new_msg d = (f, Ok true) ->
  node_received w tr s (set_from (Some a) f) = (s', tr', r) ->
  exists evs, tr' = tr ++ evs /\ forall x, In x (sent evs) ->
    slice (send_bytes x) 4 7 = match ln_ctl s with None => slice d 7 10 | Some _ => [0x0E; 0xF0; 0x01] end.
Proof.
  intros PS w tr s a d f s' tr' r B P H. destruct (parsed_received d f a B P) as (Hm & tail & ->).
  destruct (sends_bytes PS w tr s a _ s' tr' r Hm H) as (evs & -> & K). exists evs. split; [reflexivity|].
  intros x Hx. destruct (K x Hx) as (_ & K2 & _). rewrite slice_deoj. rewrite K2. cbn [m_DEOJ set_from].
  destruct (ln_ctl s); reflexivity.
Qed.

(** ** C84 *)
Lemma L_C84_same : new_super_readonly = new_super_object (PInt 0x0EF002).
Proof. reflexivity. Qed.

(** ** C43, C60 *)
Definition reg_inv (l : list nat) (v : server) : Prop :=
  exists base, (base = [] \/ base = [ONode]) /\ s_obs v = base ++ map OUser (firsts Nat.eqb l).
Lemma base_existsb base n l : base = [] \/ base = [ONode] ->
  existsb (obs_eqb (OUser n)) (base ++ map OUser (firsts Nat.eqb l)) = existsb (Nat.eqb n) l.
Proof. intros [-> | ->]; [|exact (existsb_firsts n l)]. exact (existsb_firsts n l). Qed.
Lemma reg_inv_add n l v : reg_inv l v -> reg_inv (l ++ [n]) (server_add_observer (OUser n) v).
Proof.
  intros (base & B & E). exists base. split; [exact B|]. unfold server_add_observer. cbn [s_obs]. rewrite E. unfold subj_add.
  rewrite (base_existsb _ _ _ B), (firsts_snoc Nat.eqb Nat.eqb_eq). destruct (existsb (Nat.eqb n) l); cbn [fst]; [reflexivity|].
  rewrite map_app, app_assoc. reflexivity.
Qed.
Lemma users_map l : users (map OUser l) = l.
Proof. induction l as [|n l IH]; [reflexivity|]. cbn. f_equal. exact IH. Qed.

Lemma L_C43_exact : forall w ops s0 tr0 s tr, g_servers (ln_mgr s0) = [] -> reg_run w ops (s0, tr0) = (s, tr) ->
  forall i v, server_at s i = Some v -> users (s_obs v) = firsts Nat.eqb (added_since ops) /\ ~ In ONone (s_obs v).
Proof.
  intros w ops s0 tr0 s tr E0 R.
  assert (G : Forall (reg_inv (added_since ops)) (g_servers (ln_mgr s))).
  { revert s tr R. unfold reg_run, added_since. induction ops as [|op ops IH] using rev_ind; intros s tr R.
    - cbn [fold_left] in *. injection R as <- <-. rewrite E0. constructor.
    - rewrite fold_left_app in R |- *. cbn [fold_left] in R |- *. destruct (fold_left (reg_step w) ops (s0, tr0)) as [s1 tr1] eqn:E1. specialize (IH s1 tr1 eq_refl).
      destruct op as [n|[l|]]; cbn [reg_step life_step fst snd] in R.
      + injection R as <- <-. unfold local_add_observer, mgr_add_observer. cbn [set_ln_mgr ln_mgr set_servers g_servers].
        apply Forall_forall. intros v V. apply in_map_iff in V. destruct V as (u & <- & U). apply reg_inv_add. exact (proj1 (Forall_forall _ _) IH u U).
      + destruct (local_start w tr1 s1 l) as [[s2 tr2] r] eqn:St. cbn [fst] in R. injection R as <- <-.
        destruct (local_start_shape _ _ _ _ _ _ _ St) as [(_ & _ & Rn & _)|[(_ & _ & N)|(e & ->)]].
        * unfold running in Rn. rewrite Rn. apply Forall_forall. intros v V. apply in_flat_map in V. destruct V as (x & _ & [<-|[<-|[]]]); exists [ONode]; (split; [now right|reflexivity]).
        * rewrite N. constructor.
        * destruct (L_C44_raised _ _ _ _ _ _ _ St) as (done & i & rest & uni & tr3 & _ & _ & _ & Lb & _). rewrite Lb. apply Forall_forall. intros v V.
          exists []. split; [now left|]. unfold left_behind in V. apply in_app_iff in V. destruct V as [V|V]; [apply in_flat_map in V; destruct V as (x & _ & [<-|[<-|[]]]); reflexivity|].
          destruct uni; [destruct V|destruct V as [<-|[]]; reflexivity].
      + unfold local_stop, mgr_stop in R. cbn [fst] in R. injection R as <- <-. constructor. }
  intros i v V. unfold server_at in V. apply nth_error_In in V. destruct (proj1 (Forall_forall _ _) G v V) as (base & B & ->). split.
  - unfold users. rewrite flat_map_app. fold (users base). fold (users (map OUser (firsts Nat.eqb (added_since ops)))). rewrite users_map. destruct B as [-> | ->]; reflexivity.
  - intros I. apply in_app_iff in I. destruct I as [I|I]; [destruct B as [-> | ->]; [destruct I|destruct I as [I|[]]; discriminate]|].
    apply in_map_iff in I. destruct I as (n & C & _). discriminate.
Qed.

Lemma L_C60_ignored : forall w tr s l, local_start w tr s l = local_start w tr s [].
Proof. reflexivity. Qed.

(** ** C73 *)
Lemma small_numbers n : 0 <= n <= 999 ->
  from_string (py_str (LInt n)) = if (10 <=? n) && (n <=? 99) then Ok [16 * (n / 10) + n mod 10] else Err ValueError.
Proof.
  intros H.
  assert (C : forallb (fun n => match from_string (py_str (LInt n)) with
    | Ok [b] => (10 <=? n) && (n <=? 99) && (b =? 16 * (n / 10) + n mod 10)
    | Err ValueError => negb ((10 <=? n) && (n <=? 99)) | _ => false end) (map Z.of_nat (seq 0 1000)) = true) by (vm_compute; reflexivity).
  rewrite forallb_forall in C. specialize (C n). assert (I : In n (map Z.of_nat (seq 0 1000))).
  { apply in_map_iff. exists (Z.to_nat n). split; [lia|]. apply in_seq. lia. }
  specialize (C I). cbv beta in C. destruct (from_string (py_str (LInt n))) as [[|b [|? ?]]|[]]; try discriminate.
  - rewrite !andb_true_iff in C. destruct C as (C & B). apply Z.eqb_eq in B. replace ((10 <=? n) && (n <=? 99)) with true by lia. now rewrite B.
  - apply negb_true_iff in C. now rewrite C.
Qed.
Lemma L_C73_decimal : forall obj bo esv be n, hex_text obj bo -> hex_text esv be -> 0 <= n <= 999 ->
  tool_message obj esv [[LStr "80"; LInt n]] =
  if (10 <=? n) && (n <=? 99) then Ok (mkmsg 0 0 (be_val bo) (be_val be) [mkprop 0x80 [16 * (n / 10) + n mod 10]] [] [] None None) else Err ValueError.
Proof.
  intros obj bo esv be n Ho He Hn. unfold tool_message. rewrite (L_C02_hex_from_string _ _ Ho). cbn [bindr]. rewrite (L_C02_hex_from_string _ _ He). cbn [bindr].
  cbn [tool_properties tool_property]. change (hex_from_string (py_str (LStr "80"))) with (Ok (A := Z) 0x80). cbn [bindr].
  rewrite (small_numbers n Hn). destruct ((10 <=? n) && (n <=? 99)); reflexivity.
Qed.
