(** Lemmas for C111. *)
From Coq Require Import Decimal DecimalString DecimalZ DecimalPos.
From Verif Require Import PyBase BytesM EsvM MsgM PropM ObjM DbData DbM NodeM LocalM CtrlM LogM
  SpecHex SpecWire SpecObj SpecReq SpecNode SpecLocal SpecSrv SpecEnd SpecLog DictP BytesP WireP CodecP ObjP MapP ReqP NodeP ProfP LocalP AnswerP SrvP SpecNet NetP LifeP.
From Verif Require DiscP ManyP.
Require Import ZifyBool.

(** ** Text *)
Lemma sapp_assoc a b c : ((a ++ b) ++ c = a ++ (b ++ c))%string.
Proof. induction a as [|x a IH]; [reflexivity|]. cbn. rewrite IH. reflexivity. Qed.
Lemma slen_app a b : String.length (a ++ b)%string = (String.length a + String.length b)%nat.
Proof. induction a as [|x a IH]; [reflexivity|]. cbn. rewrite IH. reflexivity. Qed.
Lemma blanks_blank n : blank_str (blanks n) /\ String.length (blanks n) = n.
Proof. induction n as [|n (A & B)]; [repeat constructor|]. split; [constructor; exact A|cbn; rewrite B; reflexivity]. Qed.
Lemma ljust_filled n s : filled n s (ljust n s).
Proof.
  exists (blanks (n - String.length s)). destruct (blanks_blank (n - String.length s)) as (A & B). split; [exact A|]. split; [reflexivity|].
  unfold ljust. rewrite slen_app, B. lia.
Qed.
Lemma blank_unique a b : blank_str a -> blank_str b -> String.length a = String.length b -> a = b.
Proof.
  intros A. revert b. induction A as [|a A IH]; intros b B; destruct B; cbn; intros E; try discriminate; [reflexivity|]. f_equal. apply IH; [assumption|lia].
Qed.
(** A name ends where a blank or colon begins. *)
Definition stops (s : string) : Prop := exists c r, s = String c r /\ (c = " "%char \/ c = ":"%char).
Lemma name_ends a : forall b s t, plain_name a -> plain_name b -> stops s -> stops t -> (a ++ s = b ++ t)%string -> a = b /\ s = t.
Proof.
  induction a as [|x a IH]; intros [|y b] s t Pa Pb Hs Ht E; cbn [append] in E.
  - auto.
  - exfalso. destruct Hs as (c & r & -> & Hc). destruct Pb as (B1 & B2 & _). assert (c = y) by congruence. subst. destruct Hc; contradiction.
  - exfalso. destruct Ht as (c & r & -> & Hc). destruct Pa as (B1 & B2 & _). assert (c = x) by congruence. subst. destruct Hc; contradiction.
  - destruct Pa as (_ & _ & Pa), Pb as (_ & _ & Pb). assert (x = y) as -> by congruence. destruct (IH b s t Pa Pb Hs Ht) as (-> & ->); [congruence|auto].
Qed.
Lemma blank_stops b s : blank_str b -> stops s -> stops (b ++ s).
Proof. intros B S. destruct B; [exact S|]. do 2 eexists. split; [reflexivity|]. now left. Qed.
Lemma sapp_inv a s t : (a ++ s = a ++ t)%string -> s = t.
Proof. induction a as [|x a IH]; cbn; intros E; [exact E|]. apply IH. congruence. Qed.
Lemma field_ends n a b x y s t : plain_name a -> plain_name b -> filled n a x -> filled n b y -> stops s -> stops t -> (x ++ s = y ++ t)%string -> a = b /\ s = t.
Proof.
  intros Pa Pb (p & Bp & -> & Lx) (q & Bq & -> & Ly) Hs Ht E. rewrite !sapp_assoc in E. apply name_ends in E as (<- & E); auto using blank_stops.
  split; [reflexivity|]. rewrite !slen_app in *. assert (p = q) as <- by (apply blank_unique; try assumption; lia). exact (sapp_inv _ _ _ E).
Qed.
Lemma uint_plain d : plain_name (NilEmpty.string_of_uint d).
Proof. induction d; cbn; try exact Logic.I; (split; [discriminate|split; [discriminate|assumption]]). Qed.
Lemma decimal_plain z : plain_name (decimal z).
Proof.
  unfold decimal, NilZero.string_of_int. assert (U : forall d, plain_name (NilZero.string_of_uint d)).
  { intros d. unfold NilZero.string_of_uint. destruct d; try apply uint_plain. cbn. repeat split; discriminate. }
  destruct (Z.to_int z); [apply U|]. cbn. split; [discriminate|]. split; [discriminate|apply U].
Qed.
Lemma decimal_inj a b : decimal a = decimal b -> a = b.
Proof.
  intros E. apply to_int_inj. assert (K : forall z, NilZero.int_of_string (decimal z) = Some (Z.to_int z)).
  { intros z. apply NilZero.isi; destruct z; cbn; try discriminate; intros H; injection H as H; pose proof (DecimalPos.Unsigned.to_uint_nonnil p); contradiction. }
  pose proof (K a) as Ka. rewrite E, K in Ka. congruence.
Qed.
Lemma hex_upper_text b : bytes_ok b -> hex_text (to_hex_upper b) b.
Proof. intros H. apply (proj1 (L_C02_from_string _)). apply L_C02_hex_round_trip. exact H. Qed.
Lemma hex_text_fun h a b : hex_text h a -> hex_text h b -> a = b.
Proof. intros A B. apply (proj1 (L_C02_from_string _)) in A, B. congruence. Qed.

Lemma L_C111_readable : forall t dir own peer b dir' own' peer' b', line_says t dir own peer b -> line_says t dir' own' peer' b' ->
  (dir = "<-" \/ dir = "->")%string -> (dir' = "<-" \/ dir' = "->")%string ->
  plain_name own -> plain_name own' -> plain_name (fst peer) -> plain_name (fst peer') ->
  dir = dir' /\ own = own' /\ peer = peer' /\ b = b'.
Proof.
  intros t dir own peer b dir' own' peer' b' (o & p & q & h & O & P & Q & H & E) (o' & p' & q' & h' & O' & P' & Q' & H' & E') D D' N1 N1' N2 N2'. subst t.
  assert (St : forall d r, stops (":3610  " ++ d ++ r)%string) by (intros; do 2 eexists; split; [reflexivity|now right]).
  assert (Sc : forall r, stops (":" ++ r)%string) by (intros; do 2 eexists; split; [reflexivity|now right]).
  assert (Sb : forall r, stops (" " ++ r)%string) by (intros; do 2 eexists; split; [reflexivity|now left]).
  apply (field_ends 15 own own' o o') in E' as (<- & E'); auto. apply (sapp_inv ":3610  ") in E'.
  assert (K : dir = dir' /\ (p ++ ":" ++ q ++ " " ++ h = p' ++ ":" ++ q' ++ " " ++ h')%string).
  { destruct D as [-> | ->], D' as [-> | ->]; [split; [reflexivity|exact (sapp_inv "<- " _ _ E')]|discriminate|discriminate|split; [reflexivity|exact (sapp_inv "-> " _ _ E')]]. }
  destruct K as (<- & K). apply (field_ends 15 (fst peer) (fst peer') p p') in K as (Ep & K); auto.
  apply (sapp_inv ":") in K. apply (field_ends 5 (decimal (snd peer)) (decimal (snd peer')) q q') in K as (Eq & K); auto using decimal_plain.
  apply (sapp_inv " ") in K. subst h'. apply decimal_inj in Eq. split; [reflexivity|]. split; [reflexivity|]. split; [destruct peer, peer'; cbn in *; congruence|exact (hex_text_fun _ _ _ H H')].
Qed.

(** ** Lines of the servers *)
Lemma sent_line_says i a b : bytes_ok b -> line_says (sent_line i a (to_hex_upper b)) "->" i a b.
Proof.
  intros H. exists (ljust 15 i), (ljust 15 (fst a)), (ljust 5 (str_int (snd a))), (to_hex_upper b). split; [apply ljust_filled|]. split; [apply ljust_filled|]. split; [apply ljust_filled|]. split; [apply hex_upper_text, H|].
  unfold sent_line, endpoint. rewrite !sapp_assoc. reflexivity.
Qed.
Lemma received_line_says i a b : bytes_ok b -> line_says (received_line i a (to_hex_upper b)) "<-" i a b.
Proof.
  intros H. exists (ljust 15 i), (ljust 15 (fst a)), (ljust 5 (str_int (snd a))), (to_hex_upper b). split; [apply ljust_filled|]. split; [apply ljust_filled|]. split; [apply ljust_filled|]. split; [apply hex_upper_text, H|].
  unfold received_line, endpoint. rewrite !sapp_assoc. reflexivity.
Qed.

Lemma trace_about tr : Forall2 about_sent (filter returned (sent tr)) (trace_records tr).
Proof.
  induction tr as [|e tr IH]; [constructor|]. unfold trace_records. cbn [flat_map]. destruct e; try exact IH.
  change (sent (EvSend ifaddr b dest r :: tr)) with ((ifaddr, b, dest, r) :: sent tr). cbn [event_records app filter returned snd]. destruct r as [n|]; [|exact IH]. constructor; [|exact IH].
  exists n. split; [reflexivity|]. split; [destruct (n <=? 0); reflexivity|]. intros B. destruct (n <=? 0); apply sent_line_says, B.
Qed.
Lemma trace_records_app a b : trace_records (a ++ b) = trace_records a ++ trace_records b.
Proof. apply flat_map_app. Qed.

Lemma L_C111_sent : forall w tr s m a tr' m' rs r, transmit_logged w tr s m a = (tr', m', rs, r) ->
  server_transmit w tr s m a = (tr', m', r) /\
  exists evs, tr' = tr ++ evs /\ Forall2 about_sent (filter returned (sent evs)) rs /\
  (r = Ok true -> exists t, rs = [(10, t)]) /\ (r = Ok false -> exists t, rs = [(40, t)]) /\ (forall e, r = Err e -> rs = []).
Proof.
  intros w tr s m a tr' m' rs r H. unfold transmit_logged in H. unfold server_transmit. unfold to_string in *. cbv zeta in *. destruct (to_bytes (set_to (Some a) m)) as [b|e] eqn:Eb; cbn [bindr] in *.
  2:{ injection H as <- <- <- <-. split; [reflexivity|]. exists []. rewrite app_nil_r. split; [reflexivity|]. split; [constructor|]. split; [discriminate|]. split; [discriminate|reflexivity]. }
  destruct (os_sendto w tr (s_if s) b a) as [n|e] eqn:En.
  2:{ injection H as <- <- <- <-. split; [reflexivity|]. eexists. split; [reflexivity|]. cbn. split; [constructor|]. split; [discriminate|]. split; [discriminate|reflexivity]. }
  pose proof (trace_about [EvSend (s_if s) b a (Ok n)]) as A.
  destruct (n <=? 0) eqn:Z; injection H as <- <- <- <-; (split; [reflexivity|]); eexists; (split; [reflexivity|]).
  - split; [unfold trace_records in A; cbn [flat_map event_records app] in A; rewrite Z in A; exact A|]. split; [discriminate|]. split; [intros _; eexists; reflexivity|discriminate].
  - split; [unfold trace_records in A; cbn [flat_map event_records app] in A; rewrite Z in A; exact A|]. split; [intros _; eexists; reflexivity|]. split; discriminate.
Qed.

Lemma wire_parsed b f : bytes_ok b -> denotes b f -> bytes_ok (wire f).
Proof. intros B (_ & tail & ->). apply Forall_app in B as (B & _). exact B. Qed.

Lemma L_C111_received : forall (PS : PySet) w tr s i d s' tr' rs, bytes_ok (fst d) -> deliver_logged w tr s i d = (s', tr', rs) ->
  deliver w tr s i d = (s', tr') /\ exists evs, tr' = tr ++ evs /\
  ((exists v f t rs', server_at s i = Some v /\ s_alive v = true /\ denotes (firstn 1024 (fst d)) f /\
     rs = (10, t) :: rs' /\ line_says t "<-" (s_if v) (snd d) (wire f) /\ Forall2 about_sent (filter returned (sent evs)) rs') \/
   (((forall v, server_at s i = Some v -> s_alive v = false) \/ ~ exists f, denotes (firstn 1024 (fst d)) f) /\ rs = [] /\ evs = [])).
Proof.
  intros PS w tr s i d s' tr' rs B H. change (firstn 1024 (fst d)) with (firstn RECV_SIZE (fst d)). unfold deliver_logged in H. unfold deliver, server_at.
  assert (B2 : bytes_ok (firstn RECV_SIZE (fst d))) by (unfold bytes_ok in *; rewrite <- (firstn_skipn RECV_SIZE (fst d)) in B; apply Forall_app in B as (B & _); exact B).
  destruct (nth_error (g_servers (ln_mgr s)) i) as [v|] eqn:V.
  2:{ injection H as <- <- <-. split; [reflexivity|]. exists []. rewrite app_nil_r. split; [reflexivity|]. right. split; [left; discriminate|auto]. }
  destruct (s_alive v) eqn:Al; cbn [negb] in *.
  2:{ injection H as <- <- <-. split; [reflexivity|]. exists []. rewrite app_nil_r. split; [reflexivity|]. right. split; [left; intros u E; congruence|auto]. }
  destruct (L_C05_parser_accepts_frames _ B2) as (P1 & P2 & P3).
  destruct (parse_bytes new_msg (firstn RECV_SIZE (fst d))) as [f [[]|e]] eqn:P.
  3:{ injection H as <- <- <-. split; [reflexivity|]. exists []. rewrite app_nil_r. split; [reflexivity|]. right. split; [right; intros (f0 & F); apply P1 in F; discriminate|auto]. }
  2:{ discriminate (P3 false eq_refl). }
  assert (De : denotes (firstn RECV_SIZE (fst d)) f) by (apply P1; reflexivity).
  assert (Tb : to_bytes (set_from (Some (snd d)) f) = Ok (wire f)).
  { destruct (L_C06_copy_received new_msg _ f (Some (snd d)) (m_to f) B2 P) as ((b' & tl & E & _) & _). cbv zeta in E. replace (set_to (m_to f) (set_from (Some (snd d)) f)) with (set_from (Some (snd d)) f) in E by (destruct f; reflexivity). pose proof (to_bytes_inv _ _ E) as (_ & ->). exact E. }
  unfold to_string in *. rewrite Tb in *. cbn [bindr] in *.
  destruct (notify w tr s (s_obs v) (set_from (Some (snd d)) f)) as [[s1 tr1] r1] eqn:No.
  destruct (parsed_received _ _ (snd d) B2 P) as (Hm & _).
  destruct (notify_only PS w _ _ (s_obs v) Hm tr s s1 tr1 r1 No) as (evs & -> & _). rewrite skipn_app, skipn_all, Nat.sub_diag in H. cbn [app skipn] in H.
  assert (L : line_says (received_line (s_if v) (snd d) (to_hex_upper (wire f))) "<-" (s_if v) (snd d) (wire f)) by (apply received_line_says, (wire_parsed _ _ B2 De)).
  destruct r1 as [u|e]; injection H as <- <- <-; (split; [reflexivity|]); exists evs; (split; [reflexivity|]); left; exists v, f; do 2 eexists;
    (split; [reflexivity|]); (split; [exact Al|]); (split; [exact De|]); (split; [reflexivity|]); (split; [exact L|apply trace_about]).
Qed.

(** ** Runs *)
Lemma merged_app {A} (a b c d l k : list A) : merged a b l -> merged c d k -> merged (a ++ c) (b ++ d) (l ++ k).
Proof. intros H K. induction H; cbn; [exact K|now constructor..]. Qed.
Lemma merged_right {A} (l : list A) : merged [] l l.
Proof. induction l; now constructor. Qed.
Lemma shape_if s s' i v : shape s' = shape s -> server_at s' i = Some v -> exists u, server_at s i = Some u /\ s_if u = s_if v.
Proof.
  intros H E. unfold shape in H. assert (N : nth_error (map (fun v => (s_uni v, s_if v, s_open v, s_obs v)) (g_servers (ln_mgr s'))) i = Some (s_uni v, s_if v, s_open v, s_obs v)) by (unfold server_at in E; rewrite nth_error_map, E; reflexivity).
  rewrite H, nth_error_map in N. unfold server_at. destruct (nth_error (g_servers (ln_mgr s)) i) as [u|]; [|discriminate]. exists u. split; [reflexivity|]. cbn in N. congruence.
Qed.
Lemma fan_exists s : exists n, fan_out n s.
Proof.
  unfold fan_out. generalize (length (open_ifs s)). intros k. induction (g_servers (ln_mgr s)) as [|v l (n & IH)]; [exists 0%nat; intros v []|].
  exists (n + length (s_obs v) * k)%nat. intros u [<-|H]; [lia|]. specialize (IH u H). lia.
Qed.

Lemma L_C111_run : forall (PS : PySet) w l tr s s' tr' rs, Forall (fun x => bytes_ok (fst (snd x))) l -> run_logged w tr s l = (s', tr', rs) ->
  run w tr s l = (s', tr') /\ exists evs ins outs heard, tr' = tr ++ evs /\ merged ins outs rs /\
  Forall2 about_sent (filter returned (sent evs)) outs /\ subseq heard l /\
  Forall2 (fun x r => exists v f, server_at s (fst x) = Some v /\ denotes (firstn 1024 (fst (snd x))) f /\ fst r = 10 /\ line_says (snd r) "<-" (s_if v) (snd (snd x)) (wire f)) heard ins.
Proof.
  intros PS w l. induction l as [|[i [b a]] l IH]; intros tr s s' tr' rs B H; cbn [run_logged] in H.
  - injection H as <- <- <-. split; [reflexivity|]. exists [], [], [], []. rewrite app_nil_r. do 4 (split; [constructor|]). constructor.
  - apply Forall_cons_iff in B as (B1 & B). cbn [fst snd] in B1. destruct (deliver_logged w tr s i (b, a)) as [[s1 tr1] g1] eqn:E1. destruct (run_logged w tr1 s1 l) as [[s2 tr2] g2] eqn:E2.
    assert (s2 = s') as -> by congruence. assert (tr2 = tr') as -> by congruence. assert (rs = g1 ++ g2) as -> by congruence. clear H.
    destruct (IH tr1 s1 s' tr' g2 B E2) as (R & evs2 & ins2 & outs2 & h2 & T2 & M2 & O2 & S2 & I2).
    destruct (L_C111_received PS w tr s i (b, a) s1 tr1 g1 B1 E1) as (D & evs1 & T1 & K).
    split; [cbn [run]; rewrite D; exact R|].
    assert (Sh : shape s1 = shape s) by (destruct (fan_exists s) as (n & Fn); exact (proj1 (deliver_sends PS w tr s i b a s1 tr1 n B1 Fn D))).
    assert (I2' : Forall2 (fun x r => exists v f, server_at s (fst x) = Some v /\ denotes (firstn 1024 (fst (snd x))) f /\ fst r = 10 /\ line_says (snd r) "<-" (s_if v) (snd (snd x)) (wire f)) h2 ins2).
    { eapply ManyP.F2_impl; [|exact I2]. intros x r (v & f & V & F). destruct (shape_if _ _ _ _ Sh V) as (u & U & Ei). exists u, f. rewrite Ei. split; [exact U|exact F]. }
    subst tr'. subst tr1. exists (evs1 ++ evs2). destruct K as [(v & f & t & rs' & V & Al & De & -> & L & F)|(_ & -> & ->)].
    + exists ((10, t) :: ins2), (rs' ++ outs2), ((i, (b, a)) :: h2). rewrite app_assoc. split; [reflexivity|]. split; [cbn [app]; apply mg_left; change ins2 with ([] ++ ins2); apply merged_app; [apply merged_right|exact M2]|].
      split; [rewrite sent_app, filter_app; apply Forall2_app; assumption|]. split; [apply sub_take; exact S2|]. constructor; [|exact I2']. exists v, f. auto.
    + exists ins2, outs2, h2. cbn [app]. rewrite app_nil_r. split; [reflexivity|]. split; [exact M2|]. split; [exact O2|]. split; [apply sub_skip; exact S2|exact I2'].
Qed.

(** ** What is printed *)
Lemma L_C111_printed : forall clock l n rs,
  Forall (fun r => In (fst r) [10; 20; 30; 40; 50]) rs ->
  Forall2 (fun x t => exists name, named (fst (snd x)) name /\ t = (clock (fst x) ++ " [" ++ name ++ "] " ++ snd (snd x))%string)
    (filter (fun x => (if lg_level l =? 0 then lg_root l else lg_level l) <=? fst (snd x)) (combine (seq n (length rs)) rs)) (printed clock l n rs).
Proof.
  intros clock l n rs H. revert n. induction H as [|r rs H Hs IH]; intros n; [constructor|]. cbn [length seq combine filter printed]. unfold enabled at 1, effective. cbn [snd].
  destruct (_ <=? fst r); [|apply IH]. constructor; [|apply IH]. exists (levelname (fst r)). split; [|reflexivity]. cbn [fst snd]. unfold named.
  destruct H as [<-|[<-|[<-|[<-|[<-|[]]]]]]; cbn; auto 8.
Qed.
Lemma L_C111_level : forall clock l n lv rs, 0 < lv <= 10 -> Forall (fun r => In (fst r) [10; 20; 30; 40; 50]) rs ->
  length (printed clock (setLevel lv l) n rs) = length rs.
Proof.
  intros clock l n lv rs L H. revert n. induction H as [|r rs H Hs IH]; intros n; [reflexivity|]. cbn [printed]. unfold enabled at 1, effective. cbn [setLevel lg_level lg_root].
  replace (lv =? 0) with false by lia. replace (lv <=? fst r) with true; [cbn [length]; rewrite IH; reflexivity|]. destruct H as [<-|[<-|[<-|[<-|[<-|[]]]]]]; lia.
Qed.

(** ** What the log does not show *)
Lemma L_C111_malformed_refuted : forall (PS : PySet) w tr s i v b a, server_at s i = Some v -> s_alive v = true -> bytes_ok b ->
  (~ exists f, denotes (firstn 1024 b) f) -> exists s', deliver_logged w tr s i (b, a) = (s', tr, []) /\ exists v', server_at s' i = Some v' /\ s_alive v' = false.
Proof.
  intros PS w tr s i v b a V Al B N. destruct (deliver_logged w tr s i (b, a)) as [[s' tr'] rs] eqn:E.
  destruct (L_C111_received PS w tr s i (b, a) s' tr' rs B E) as (D & evs & T & [(v0 & f & t & rs' & _ & _ & De & _)|(_ & -> & ->)]); [exfalso; apply N; exists f; exact De|].
  exists s'. rewrite app_nil_r in T. subst tr'. split; [reflexivity|]. unfold deliver_logged in E. unfold server_at in *. rewrite V, Al in E. cbn [negb] in E.
  assert (B2 : bytes_ok (firstn RECV_SIZE b)) by (unfold bytes_ok in *; rewrite <- (firstn_skipn RECV_SIZE b) in B; apply Forall_app in B as (B & _); exact B).
  destruct (L_C05_parser_accepts_frames _ B2) as (P1 & P2 & P3). cbn [fst] in E. destruct (parse_bytes new_msg (firstn RECV_SIZE b)) as [f [[]|e]] eqn:P.
  - exfalso. apply N. exists f. apply P1. reflexivity.
  - discriminate (P3 false eq_refl).
  - assert (s' = kill i s) as -> by congruence. unfold kill. rewrite V. cbn [ln_mgr set_ln_mgr set_servers g_servers]. eexists. split; [rewrite DiscP.nth_upd, Nat.eqb_refl; assert (Li : (i < length (g_servers (ln_mgr s)))%nat) by (apply nth_error_Some; congruence); apply Nat.ltb_lt in Li; rewrite Li; reflexivity|reflexivity].
Qed.
Lemma L_C111_tail_refuted : forall (PS : PySet) w tr s i v f tail a, server_at s i = Some v -> s_alive v = true -> bytes_ok (wire f ++ tail) -> frame_msg f -> tail <> [] ->
  (length (wire f) <= 1024)%nat -> plain_name (s_if v) -> plain_name (fst a) ->
  exists s' tr' t rs, deliver_logged w tr s i (wire f ++ tail, a) = (s', tr', (10, t) :: rs) /\
  line_says t "<-" (s_if v) a (wire f) /\ ~ line_says t "<-" (s_if v) a (wire f ++ tail).
Proof.
  intros PS w tr s i v f tail a V Al B Fm Nt Le P1 P2. destruct (deliver_logged w tr s i (wire f ++ tail, a)) as [[s' tr'] rs] eqn:E.
  assert (De : denotes (firstn 1024 (wire f ++ tail)) f).
  { split; [exact Fm|]. exists (firstn (1024 - length (wire f)) tail). rewrite firstn_app, firstn_all2 by exact Le. reflexivity. }
  destruct (L_C111_received PS w tr s i (wire f ++ tail, a) s' tr' rs B E) as (D & evs & T & [(v0 & f0 & t & rs' & V0 & _ & De0 & -> & L & _)|([N|N] & _)]); cbn [fst snd] in *.
  - exists s', tr', t, rs'. split; [reflexivity|]. assert (v0 = v) as -> by congruence.
    assert (f0 = f) as ->.
    { assert (B2 : bytes_ok (firstn 1024 (wire f ++ tail))) by (unfold bytes_ok in *; rewrite <- (firstn_skipn 1024 (wire f ++ tail)) in B; apply Forall_app in B as (B & _); exact B).
      exact (proj1 (proj2 (L_C05_parser_accepts_frames _ B2)) _ _ De0 De). }
    split; [exact L|]. intros L2. destruct (L_C111_readable _ _ _ _ _ _ _ _ _ L L2 (or_introl eq_refl) (or_introl eq_refl) P1 P1 P2 P2) as (_ & _ & _ & Q).
    apply Nt. apply (f_equal (@length Z)) in Q. rewrite app_length in Q. destruct tail; [reflexivity|cbn in Q; lia].
  - specialize (N v V). congruence.
  - exfalso. apply N. exists f. exact De.
Qed.
Lemma L_C111_raised_refuted : forall w tr s m a b e, to_bytes (set_to (Some a) m) = Ok b -> os_sendto w tr (s_if s) b a = Err e ->
  transmit_logged w tr s m a = (tr ++ [EvSend (s_if s) b a (Err e)], set_to (Some a) m, [], Err e).
Proof. intros w tr s m a b e E R. unfold transmit_logged, to_string. rewrite E. cbn [bindr]. rewrite R. reflexivity. Qed.
