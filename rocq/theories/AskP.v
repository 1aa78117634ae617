(** Lemmas for C104. *)
From Verif Require Import PyBase BytesM EsvM MsgM PropM ObjM AskM SpecAsk DictP.
Require Import ZifyBool.

(** ** Comparison with ObjM *)
Definition same_obj (n0 : nat) (hist : list question) (h : uhandler) (o : obj) (s : ast) : Prop :=
  o_handler o = HUser h /\ o_props o = a_props s /\ Nat.add n0 (length (a_asked s)) = o_calls o.
Lemma ask_write n0 hist h o s p d : same_obj n0 hist h o s ->
  let '(o1, r) := write_requested o p d in let '(s1, r') := ask (counting n0 h) s (QWrite p d) in r = r' /\ same_obj n0 hist h o1 s1.
Proof.
  intros (H & P & C). unfold write_requested, ask, counting. rewrite H, P, C. destruct (h_write h (o_calls o) (a_props s) p d) as [ps r]. split; [reflexivity|].
  split; [exact H|]. split; [reflexivity|]. cbn [a_asked after_call o_calls]. rewrite app_length. cbn [length]. lia.
Qed.
Lemma ask_read n0 hist h o s p : same_obj n0 hist h o s ->
  let '(o1, r) := read_requested o p in let '(s1, r') := ask (counting n0 h) s (QRead p) in r = r' /\ same_obj n0 hist h o1 s1.
Proof.
  intros (H & P & C). unfold read_requested, ask, counting. rewrite H, P, C. destruct (h_read h (o_calls o) (a_props s) p) as [ps r]. split; [reflexivity|].
  split; [exact H|]. split; [reflexivity|]. cbn [a_asked after_call o_calls]. rewrite app_length. cbn [length]. lia.
Qed.
Lemma same_store n0 hist h o s c d : same_obj n0 hist h o s -> same_obj n0 hist h (store c d o) (a_store c d s).
Proof.
  intros (H & P & C). unfold store, a_store, set_property_data, get_property. rewrite P. destruct (zget c (a_props s)); [|split; [exact H|split; [exact P|exact C]]].
  split; [exact H|]. split; [cbn; rewrite ?P; reflexivity|exact C].
Qed.
Lemma same_current n0 hist h o s c p : same_obj n0 hist h o s -> current c p o = a_current c p s.
Proof. intros (H & P & C). unfold current, a_current, get_property. rewrite P. reflexivity. Qed.
Definition same_body n0 hist h (f : obj -> prop -> obj * res (prop * bool)) (g : ast -> prop -> ast * res (prop * bool)) : Prop :=
  forall o s mp, same_obj n0 hist h o s -> let '(o1, r) := f o mp in let '(s1, r') := g s mp in r = r' /\ same_obj n0 hist h o1 s1.
Lemma body_write n0 hist h : same_body n0 hist h do_write (a_write (counting n0 h)).
Proof.
  intros o s mp S. unfold do_write, a_write, get_property. rewrite (proj1 (proj2 S)). destruct (zget (p_code mp) (a_props s)) as [p|]; [|auto].
  pose proof (ask_write n0 hist h o s p (p_data mp) S) as A. destruct (write_requested o p (p_data mp)) as [o1 r], (ask (counting n0 h) s (QWrite p (p_data mp))) as [s1 r']. destruct A as (-> & S1).
  destruct r' as [[|]|e]; split; try reflexivity; try exact S1. apply same_store. exact S1.
Qed.
Lemma body_read n0 hist h : same_body n0 hist h do_read (a_read (counting n0 h)).
Proof.
  intros o s mp S. unfold do_read, a_read, get_property. rewrite (proj1 (proj2 S)). destruct (zget (p_code mp) (a_props s)) as [p|]; [|auto].
  pose proof (ask_read n0 hist h o s (Some p) S) as A. destruct (read_requested o (Some p)) as [o1 r], (ask (counting n0 h) s (QRead (Some p))) as [s1 r']. destruct A as (-> & S1).
  destruct r' as [[|]|e]; split; try reflexivity; try exact S1. rewrite (same_current _ _ _ _ _ _ _ S1). reflexivity.
Qed.
Lemma body_read_wr n0 hist h : same_body n0 hist h do_read_wr (a_read_wr (counting n0 h)).
Proof.
  intros o s mp S. unfold do_read_wr, a_read_wr, get_property. rewrite (proj1 (proj2 S)). cbv zeta. destruct (zget (p_code mp) (a_props s)) as [p|].
  - pose proof (ask_read n0 hist h o s (Some p) S) as A. destruct (read_requested o (Some p)) as [o1 r], (ask (counting n0 h) s (QRead (Some p))) as [s1 r']. destruct A as (-> & S1).
    destruct r' as [[|]|e]; split; try reflexivity; try exact S1. rewrite (same_current _ _ _ _ _ _ _ S1). reflexivity.
  - pose proof (ask_read n0 hist h o s None S) as A. destruct (read_requested o None) as [o1 r], (ask (counting n0 h) s (QRead None)) as [s1 r']. destruct A as (-> & S1).
    destruct r' as [[|]|e]; split; try reflexivity; exact S1.
Qed.
Lemma same_loop n0 hist h f g : same_body n0 hist h f g -> forall l o s, same_obj n0 hist h o s ->
  let '(o1, r) := do_loop f o l in let '(s1, r') := a_loop g s l in r = r' /\ same_obj n0 hist h o1 s1.
Proof.
  intros B l. induction l as [|mp l IH]; intros o s S; cbn [do_loop a_loop]; [auto|]. pose proof (B o s mp S) as A. destruct (f o mp) as [o1 r], (g s mp) as [s1 r']. destruct A as (-> & S1).
  destruct r' as [[rp acc]|e]; [|auto]. specialize (IH o1 s1 S1). destruct (do_loop f o1 l) as [o2 r2], (a_loop g s1 l) as [s2 r2']. destruct IH as (-> & S2). destruct r2' as [[rps n]|e]; auto.
Qed.
Lemma L_C104_same : forall h o req, o_handler o = HUser h ->
  let '(o', _, r) := obj_message_received o req in
  let '(s', r') := a_received (counting (o_calls o) h) (mkast (o_props o) []) req in
  r = r' /\ o_props o' = a_props s' /\ o_calls o' = Nat.add (o_calls o) (length (a_asked s')).
Proof.
  intros h o req H. assert (S : same_obj (o_calls o) [] h o (mkast (o_props o) [])) by (split; [exact H|split; [reflexivity|cbn; lia]]).
  assert (Fin : forall o1 s1, same_obj (o_calls o) [] h o1 s1 -> o_props o1 = a_props s1 /\ o_calls o1 = Nat.add (o_calls o) (length (a_asked s1))) by (intros o1 s1 (_ & A & B); auto).
  unfold obj_message_received, a_received. rewrite H. destruct (negb (is_request (m_ESV req))); [split; [reflexivity|]; apply Fin; exact S|]. cbv zeta.
  destruct (is_write_read_request (m_ESV req)).
  - pose proof (same_loop _ _ _ _ _ (body_write (o_calls o) [] h) (m_sets req) _ _ S) as A. destruct (do_loop do_write o (m_sets req)) as [o1 r1], (a_loop (a_write (counting (o_calls o) h)) _ (m_sets req)) as [s1 r1']. destruct A as (-> & S1).
    destruct r1' as [[ss n]|e]; [|auto].
    pose proof (same_loop _ _ _ _ _ (body_read_wr (o_calls o) [] h) (m_gets req) _ _ S1) as A. destruct (do_loop do_read_wr o1 (m_gets req)) as [o2 r2], (a_loop (a_read_wr (counting (o_calls o) h)) _ (m_gets req)) as [s2 r2']. destruct A as (-> & S2).
    destruct r2' as [[gs k]|e]; [|auto]. destruct (response_esv _ _); auto.
  - assert (B : same_body (o_calls o) [] h (do_plain (m_ESV req)) (a_plain (counting (o_calls o) h) (m_ESV req))).
    { unfold do_plain, a_plain. destruct (is_read_request (m_ESV req)); [apply body_read|]. destruct (is_write_request (m_ESV req)); [apply body_write|]. intros o1 s1 mp S1. split; [reflexivity|exact S1]. }
    pose proof (same_loop _ _ _ _ _ B (m_props req) _ _ S) as A. destruct (do_loop _ o (m_props req)) as [o1 r1], (a_loop _ _ (m_props req)) as [s1 r1']. destruct A as (-> & S1).
    destruct r1' as [[ps n]|e]; [|auto]. destruct (response_esv _ _); auto.
Qed.

(** ** The questions *)
Definition codes_of (ps0 : props) (s : ast) : Prop := forall c, option_map op_code (zget c (a_props s)) = if has ps0 c then Some c else None.
Lemma codes_self ps hist : by_code ps -> codes_of ps (mkast ps hist).
Proof. intros B c. unfold has. cbn [a_props]. destruct (zget c ps) as [p|] eqn:E; [|reflexivity]. cbn. rewrite (B c p E). reflexivity. Qed.
Lemma codes_get ps0 s c : codes_of ps0 s -> match zget c (a_props s) with Some p => has ps0 c = true /\ op_code p = c | None => has ps0 c = false end.
Proof. intros C. specialize (C c). destruct (zget c (a_props s)), (has ps0 c); cbn in C; try discriminate; try split; congruence. Qed.
Lemma ask_codes h ps0 s q : keeps_codes h -> codes_of ps0 s -> codes_of ps0 (fst (ask h s q)) /\ a_asked (fst (ask h s q)) = a_asked s ++ [q].
Proof.
  intros K C. unfold ask. pose proof (K (a_asked s) (a_props s) q) as K1. destruct (h (a_asked s) (a_props s) q) as [ps r]. cbn [fst a_asked] in *. split; [|reflexivity]. intros c. cbn [a_props]. rewrite K1. apply C.
Qed.
Lemma store_codes ps0 s c d : codes_of ps0 s -> codes_of ps0 (a_store c d s) /\ a_asked (a_store c d s) = a_asked s.
Proof.
  intros C. unfold a_store. destruct (zget c (a_props s)) as [p|] eqn:E; [|auto]. split; [|reflexivity]. intros c'. cbn [a_props]. rewrite (dget_dset Z.eqb zeqb_eq). specialize (C c'). destruct (Z.eqb_spec c' c) as [->|N].
  - rewrite E in C. cbn in C |- *. exact C.
  - exact C.
Qed.
Definition body_asks (ps0 : props) (due : prop -> list (option Z * option (list Z))) (f : ast -> prop -> ast * res (prop * bool)) : Prop :=
  forall s mp, codes_of ps0 s -> exists qs, a_asked (fst (f s mp)) = a_asked s ++ qs /\ map what qs = due mp /\ codes_of ps0 (fst (f s mp)).
Lemma asks_write h ps0 : keeps_codes h -> body_asks ps0 (fun mp => if has ps0 (p_code mp) then [(Some (p_code mp), Some (p_data mp))] else []) (a_write h).
Proof.
  intros K s mp C. unfold a_write. pose proof (codes_get _ _ (p_code mp) C) as G. destruct (zget (p_code mp) (a_props s)) as [p|]; [destruct G as (-> & G)|rewrite G; exists []; rewrite app_nil_r; auto].
  destruct (ask_codes h ps0 s (QWrite p (p_data mp)) K C) as (C1 & A1). destruct (ask h s (QWrite p (p_data mp))) as [s1 r]. cbn [fst] in *. exists [QWrite p (p_data mp)].
  destruct r as [[|]|e]; cbn [fst].
  - destruct (store_codes ps0 s1 (p_code mp) (p_data mp) C1) as (C2 & ->). split; [exact A1|]. split; [unfold what; cbn; rewrite G; reflexivity|exact C2].
  - split; [exact A1|]. split; [unfold what; cbn; rewrite G; reflexivity|exact C1].
  - split; [exact A1|]. split; [unfold what; cbn; rewrite G; reflexivity|exact C1].
Qed.
Lemma asks_read h ps0 : keeps_codes h -> body_asks ps0 (fun mp => if has ps0 (p_code mp) then [(Some (p_code mp), None)] else []) (a_read h).
Proof.
  intros K s mp C. unfold a_read. pose proof (codes_get _ _ (p_code mp) C) as G. destruct (zget (p_code mp) (a_props s)) as [p|]; [destruct G as (-> & G)|rewrite G; exists []; rewrite app_nil_r; auto].
  destruct (ask_codes h ps0 s (QRead (Some p)) K C) as (C1 & A1). destruct (ask h s (QRead (Some p))) as [s1 r]. cbn [fst] in *. exists [QRead (Some p)].
  destruct r as [[|]|e]; cbn [fst]; (split; [exact A1|]; split; [unfold what; cbn; rewrite G; reflexivity|exact C1]).
Qed.
Lemma asks_read_wr h ps0 : keeps_codes h -> body_asks ps0 (fun mp => [(if has ps0 (p_code mp) then Some (p_code mp) else None, None)]) (a_read_wr h).
Proof.
  intros K s mp C. unfold a_read_wr. cbv zeta. pose proof (codes_get _ _ (p_code mp) C) as G. set (op := zget (p_code mp) (a_props s)) in *.
  destruct (ask_codes h ps0 s (QRead op) K C) as (C1 & A1). destruct (ask h s (QRead op)) as [s1 r]. cbn [fst] in *. exists [QRead op].
  assert (W : what (QRead op) = (if has ps0 (p_code mp) then Some (p_code mp) else None, None)).
  { destruct op as [p|]; [destruct G as (-> & G); unfold what; cbn; rewrite G; reflexivity|rewrite G; reflexivity]. }
  cbn [map]. rewrite W. destruct r as [[|]|e]; [destruct op|..]; cbn [fst]; auto.
Qed.
Lemma asks_skip ps0 : body_asks ps0 (fun _ => []) a_skip.
Proof. intros s mp C. exists []. cbn. rewrite app_nil_r. auto. Qed.
Lemma asks_loop ps0 due f : body_asks ps0 due f -> forall l s, codes_of ps0 s ->
  exists qs, a_asked (fst (a_loop f s l)) = a_asked s ++ qs /\ prefix_of (map what qs) (flat_map due l) /\
  (forall r, snd (a_loop f s l) = Ok r -> map what qs = flat_map due l) /\ codes_of ps0 (fst (a_loop f s l)).
Proof.
  intros B l. induction l as [|mp l IH]; intros s C; cbn [a_loop flat_map].
  - exists []. rewrite app_nil_r. cbn. split; [reflexivity|]. split; [exists []; reflexivity|]. auto.
  - destruct (B s mp C) as (q1 & A1 & D1 & C1). destruct (f s mp) as [s1 r1]. cbn [fst] in *. destruct r1 as [[rp acc]|e].
    + destruct (IH s1 C1) as (q2 & A2 & D2 & F2 & C2). destruct (a_loop f s1 l) as [s2 r2]. cbn [fst snd] in *. exists (q1 ++ q2).
      assert (A : a_asked s2 = a_asked s ++ q1 ++ q2) by (rewrite A2, A1, app_assoc; reflexivity).
      assert (P : prefix_of (map what (q1 ++ q2)) (due mp ++ flat_map due l)).
      { destruct D2 as (r & D2). exists r. rewrite map_app, D1, <- app_assoc. f_equal. exact D2. }
      destruct r2 as [[rps n]|e]; cbn [fst snd]; (split; [exact A|]; split; [exact P|]; split; [|exact C2]).
      * intros _ _. rewrite map_app, D1. f_equal. exact (F2 _ eq_refl).
      * discriminate.
    + exists q1. split; [exact A1|]. split; [rewrite D1; exists (flat_map due l); reflexivity|]. split; [discriminate|exact C1].
Qed.
Lemma flat_filter {B} (t : prop -> bool) (g : prop -> B) l : flat_map (fun mp => if t mp then [g mp] else []) l = map g (filter t l).
Proof. induction l as [|a l IH]; cbn; [reflexivity|]. destruct (t a); cbn; rewrite IH; reflexivity. Qed.
Lemma flat_one {B} (g : prop -> B) l : flat_map (fun mp => [g mp]) l = map g l.
Proof. induction l as [|a l IH]; cbn; [reflexivity|]. rewrite IH. reflexivity. Qed.
Lemma flat_none {B} (l : list prop) : flat_map (fun _ => @nil B) l = [].
Proof. induction l as [|a l IH]; cbn; auto. Qed.

Lemma asks_received h ps0 s m : keeps_codes h -> codes_of ps0 s ->
  exists qs, a_asked (fst (a_received h s m)) = a_asked s ++ qs /\ prefix_of (map what qs) (questions_asked ps0 m) /\
  (forall r, snd (a_received h s m) = Ok r -> map what qs = questions_asked ps0 m) /\ codes_of ps0 (fst (a_received h s m)).
Proof.
  intros K C. unfold a_received, questions_asked, questions_due.
  destruct (negb (is_request (m_ESV m))) eqn:Rq.
  { exists []. rewrite app_nil_r. unfold is_request in Rq. assert (E : (m_ESV m =? 0x6E) = false /\ ((m_ESV m =? 0x60) || (m_ESV m =? 0x61)) = false /\ (m_ESV m =? 0x62) = false).
    { destruct (Z.eqb_spec (m_ESV m) 0x6E) as [E|_]; [rewrite E in Rq; discriminate Rq|]. destruct (Z.eqb_spec (m_ESV m) 0x60) as [E|_]; [rewrite E in Rq; discriminate Rq|].
      destruct (Z.eqb_spec (m_ESV m) 0x61) as [E|_]; [rewrite E in Rq; discriminate Rq|]. destruct (Z.eqb_spec (m_ESV m) 0x62) as [E|_]; [rewrite E in Rq; discriminate Rq|]. auto. }
    destruct E as (-> & -> & ->). cbn [fst snd]. split; [reflexivity|]. split; [exists []; reflexivity|]. auto. }
  cbv zeta. replace (is_write_read_request (m_ESV m)) with (m_ESV m =? 0x6E) by (unfold is_write_read_request, WRITE_READ_REQUEST; destruct (m_ESV m =? 0x6E); reflexivity). destruct (Z.eqb_spec (m_ESV m) 0x6E) as [E|N6].
  - destruct (asks_loop ps0 _ _ (asks_write h ps0 K) (m_sets m) s C) as (q1 & A1 & D1 & F1 & C1). rewrite flat_filter in D1, F1. destruct (a_loop (a_write h) s (m_sets m)) as [s1 r1]. cbn [fst snd] in *.
    fold (writes_due ps0 (m_sets m)) in *.
    destruct r1 as [[ss n]|e].
    + destruct (asks_loop ps0 _ _ (asks_read_wr h ps0 K) (m_gets m) s1 C1) as (q2 & A2 & D2 & F2 & C2). rewrite flat_one in D2, F2. destruct (a_loop (a_read_wr h) s1 (m_gets m)) as [s2 r2]. cbn [fst snd] in *.
      specialize (F1 _ eq_refl). exists (q1 ++ q2). assert (A : a_asked s2 = a_asked s ++ q1 ++ q2) by (rewrite A2, A1, app_assoc; reflexivity).
      set (rd := map (fun mp : prop => _) (m_gets m)) in *.
      assert (P : prefix_of (map what (q1 ++ q2)) (writes_due ps0 (m_sets m) ++ rd)) by (destruct D2 as (r & D2); exists r; rewrite map_app, F1, <- app_assoc; f_equal; exact D2).
      destruct r2 as [[gs k]|e].
      * assert (W : map what (q1 ++ q2) = writes_due ps0 (m_sets m) ++ rd) by (rewrite map_app, F1; f_equal; exact (F2 _ eq_refl)).
        destruct (response_esv _ _); cbn [fst snd]; auto.
      * cbn [fst snd]. split; [exact A|]. split; [exact P|]. split; [discriminate|exact C2].
    + exists q1. cbn [fst snd]. split; [exact A1|]. split; [destruct D1 as (r & D1); rewrite D1, <- app_assoc; eexists; reflexivity|]. split; [discriminate|exact C1].
  - assert (B : exists due, body_asks ps0 due (a_plain h (m_ESV m)) /\ flat_map due (m_props m) =
      (if (m_ESV m =? 0x60) || (m_ESV m =? 0x61) then writes_due ps0 (m_props m) else if m_ESV m =? 0x62 then reads_due ps0 (m_props m) else [])).
    { unfold a_plain. destruct (is_read_request (m_ESV m)) eqn:Rd.
      - exists (fun mp => if has ps0 (p_code mp) then [(Some (p_code mp), None)] else []). split; [apply asks_read; exact K|]. rewrite flat_filter.
        destruct (Z.eqb_spec (m_ESV m) 0x60) as [E|_]; [rewrite E in Rd; discriminate Rd|]. destruct (Z.eqb_spec (m_ESV m) 0x61) as [E|_]; [rewrite E in Rd; discriminate Rd|].
        cbn [orb]. unfold is_read_request in Rd. destruct (Z.eqb_spec (m_ESV m) 0x62) as [E|N]; [reflexivity|]. exfalso. revert Rd. unfold READ_REQUEST, WRITE_READ_REQUEST. destruct (Z.eqb_spec (m_ESV m) 98); [lia|]. destruct (Z.eqb_spec (m_ESV m) 110); [lia|discriminate].
      - destruct (is_write_request (m_ESV m)) eqn:Wr.
        + exists (fun mp => if has ps0 (p_code mp) then [(Some (p_code mp), Some (p_data mp))] else []). split; [apply asks_write; exact K|]. rewrite flat_filter. fold (writes_due ps0 (m_props m)).
          destruct (Z.eqb_spec (m_ESV m) 0x60) as [E|N0]; [reflexivity|]. destruct (Z.eqb_spec (m_ESV m) 0x61) as [E|N1]; [reflexivity|].
          exfalso. revert Wr. unfold is_write_request, WRITE_REQUEST, WRITE_READ_REQUEST, WRITE_REQUEST_RESPONSE_REQUIRED. destruct (Z.eqb_spec (m_ESV m) 96); [lia|]. destruct (Z.eqb_spec (m_ESV m) 110); [lia|]. destruct (Z.eqb_spec (m_ESV m) 97); [lia|discriminate].
        + exists (fun _ => []). split; [apply asks_skip|]. rewrite flat_none.
          destruct (Z.eqb_spec (m_ESV m) 0x60) as [E|_]; [rewrite E in Wr; discriminate Wr|]. destruct (Z.eqb_spec (m_ESV m) 0x61) as [E|_]; [rewrite E in Wr; discriminate Wr|].
          destruct (Z.eqb_spec (m_ESV m) 0x62) as [E|_]; [rewrite E in Rd; discriminate Rd|]. reflexivity. }
    destruct B as (due & B & D). destruct (asks_loop ps0 due _ B (m_props m) s C) as (q1 & A1 & D1 & F1 & C1). rewrite D in D1, F1. destruct (a_loop _ s (m_props m)) as [s1 r1]. cbn [fst snd] in *.
    exists q1. destruct r1 as [[ps n]|e].
    + specialize (F1 _ eq_refl). destruct (response_esv _ _); cbn [fst snd]; auto.
    + cbn [fst snd]. split; [exact A1|]. split; [exact D1|]. split; [discriminate|exact C1].
Qed.

Definition asked_for (ps : props) (due : props -> msg -> list (option Z * option (list Z))) (mr : msg * res (option msg)) (qs : list question) : Prop :=
  prefix_of (map what qs) (due ps (fst mr)) /\ ((exists a, snd mr = Ok a) -> map what qs = due ps (fst mr)).
Lemma run_asks h ps0 ms : keeps_codes h -> forall s, codes_of ps0 s ->
  exists qss, a_asked (fst (a_run h s ms)) = a_asked s ++ concat qss /\ length (snd (a_run h s ms)) = length ms /\
  Forall2 (asked_for ps0 questions_asked) (combine ms (snd (a_run h s ms))) qss.
Proof.
  intros K. induction ms as [|m ms IH]; intros s C; cbn [a_run].
  - exists []. cbn. rewrite app_nil_r. split; [reflexivity|]. split; [reflexivity|constructor].
  - destruct (asks_received h ps0 s m K C) as (qs & A & P & F & C1). destruct (a_received h s m) as [s1 r]. cbn [fst snd] in *. destruct (IH s1 C1) as (qss & A2 & L & F2).
    destruct (a_run h s1 ms) as [s2 rs]. cbn [fst snd] in *. exists (qs :: qss). cbn [concat combine length]. split; [rewrite A2, A, app_assoc; reflexivity|]. split; [lia|].
    constructor; [|exact F2]. split; [exact P|]. intros (a & E). exact (F a E).
Qed.
Lemma L_C104_asked : forall h ps hist ms, keeps_codes h -> by_code ps ->
  exists qss, a_asked (fst (a_run h (mkast ps hist) ms)) = hist ++ concat qss /\
  length (snd (a_run h (mkast ps hist) ms)) = length ms /\
  Forall2 (fun mr qs => prefix_of (map what qs) (questions_asked ps (fst mr)) /\
                        ((exists a, snd mr = Ok a) -> map what qs = questions_asked ps (fst mr)))
    (combine ms (snd (a_run h (mkast ps hist) ms))) qss.
Proof. intros h ps hist ms K B. exact (run_asks h ps ms K _ (codes_self ps hist B)). Qed.
Lemma due_asked ps m : (m_ESV m = 0x6E -> forallb (fun mp => has ps (p_code mp)) (m_gets m) = true) -> questions_asked ps m = questions_due ps m.
Proof.
  unfold questions_asked, questions_due. intros H. destruct (Z.eqb_spec (m_ESV m) 0x6E) as [E|N]; [|reflexivity]. specialize (H E). rewrite E. cbn [Z.eqb Pos.eqb orb]. f_equal. unfold reads_due.
  rewrite forallb_forall in H. induction (m_gets m) as [|g gs IH]; [reflexivity|]. cbn [map filter]. rewrite (H g (or_introl eq_refl)). cbn [map]. f_equal. apply IH. intros x I. apply H. right. exact I.
Qed.
Lemma L_C104_once_partial : forall h ps hist ms, keeps_codes h -> by_code ps ->
  (forall m, In m ms -> m_ESV m = 0x6E -> forallb (fun mp => has ps (p_code mp)) (m_gets m) = true) ->
  exists qss, a_asked (fst (a_run h (mkast ps hist) ms)) = hist ++ concat qss /\
  length (snd (a_run h (mkast ps hist) ms)) = length ms /\
  Forall2 (fun mr qs => prefix_of (map what qs) (questions_due ps (fst mr)) /\
                        ((exists a, snd mr = Ok a) -> map what qs = questions_due ps (fst mr)))
    (combine ms (snd (a_run h (mkast ps hist) ms))) qss.
Proof.
  intros h ps hist ms K B G. destruct (L_C104_asked h ps hist ms K B) as (qss & A & L & F). exists qss. split; [exact A|]. split; [exact L|].
  revert L F. generalize (snd (a_run h (mkast ps hist) ms)). clear A. revert qss. induction ms as [|m ms IH]; intros qss rs L F; destruct rs as [|r rs]; cbn in L; try discriminate L; cbn [combine] in *; inversion F; subst; constructor.
  - cbn [fst snd] in *. rewrite <- (due_asked ps m (G m (or_introl eq_refl))). assumption.
  - apply IH; [intros x I; apply G; right; exact I|lia|assumption].
Qed.
Lemma L_C104_silent : forall h s m, ~ In (m_ESV m) [0x60; 0x61; 0x62; 0x6E] -> fst (a_received h s m) = s.
Proof.
  intros h s m N. unfold a_received. destruct (negb (is_request (m_ESV m))); [reflexivity|]. cbv zeta. cbn [In] in N.
  replace (is_write_read_request (m_ESV m)) with false by (unfold is_write_read_request, WRITE_READ_REQUEST; destruct (Z.eqb_spec (m_ESV m) 0x6E); [lia|reflexivity]).
  assert (P : a_plain h (m_ESV m) = a_skip).
  { unfold a_plain, is_read_request, is_write_request, READ_REQUEST, WRITE_READ_REQUEST, WRITE_REQUEST, WRITE_REQUEST_RESPONSE_REQUIRED.
    destruct (Z.eqb_spec (m_ESV m) 98); [lia|]. destruct (Z.eqb_spec (m_ESV m) 110); [lia|]. destruct (Z.eqb_spec (m_ESV m) 96); [lia|]. destruct (Z.eqb_spec (m_ESV m) 97); [lia|reflexivity]. }
  rewrite P. assert (L : forall l, exists r, a_loop a_skip s l = (s, Ok r)).
  { intros l. induction l as [|a l (r & IH)]; [eexists; reflexivity|]. cbn [a_loop a_skip]. rewrite IH. destruct r. eexists. reflexivity. }
  destruct (L (m_props m)) as ([ps n] & ->). destruct (response_esv _ _); reflexivity.
Qed.
Lemma L_C104_unknown_refuted : forall h ps hist m mp, zget (p_code mp) ps = None -> m_ESV m = 0x6E -> m_sets m = [] -> m_gets m = [mp] ->
  a_asked (fst (a_received h (mkast ps hist) m)) = hist ++ [QRead None] /\ questions_due ps m = [].
Proof.
  intros h ps hist m mp Z E Ss Gs. split.
  - unfold a_received. rewrite E, Ss, Gs. change (negb (is_request 110)) with false. change (is_write_read_request 110) with true. cbv zeta iota. cbn [a_loop]. unfold a_read_wr. cbn [a_props]. rewrite Z. unfold ask. cbn [a_asked a_props].
    destruct (h hist ps (QRead None)) as [ps1 [[|]|e]]; cbv zeta iota beta; try reflexivity. destruct (response_esv _ _); reflexivity.
  - unfold questions_due. rewrite E, Ss, Gs. cbn. unfold reads_due. cbn. unfold has. rewrite Z. reflexivity.
Qed.

(** ** What a question shows *)
Lemma shown_ask h h' s q : (forall hist ps q, shown ps q -> h hist ps q = h' hist ps q) -> shown (a_props s) q -> ask h s q = ask h' s q.
Proof. intros A S. unfold ask. rewrite (A _ _ _ S). reflexivity. Qed.
Lemma loop_ext f g : (forall s mp, f s mp = g s mp) -> forall l s, a_loop f s l = a_loop g s l.
Proof. intros E l. induction l as [|mp l IH]; intros s; [reflexivity|]. cbn [a_loop]. rewrite E. destruct (g s mp) as [s1 [[rp acc]|e]]; [|reflexivity]. rewrite IH. reflexivity. Qed.
Lemma L_C104_shown : forall h h', (forall hist ps q, shown ps q -> h hist ps q = h' hist ps q) -> forall ms s, a_run h s ms = a_run h' s ms.
Proof.
  intros h h' A. assert (W : forall s mp, a_write h s mp = a_write h' s mp).
  { intros s mp. unfold a_write. destruct (zget (p_code mp) (a_props s)) as [p|] eqn:G; [|reflexivity]. rewrite (shown_ask h h' s _ A); [reflexivity|]. exists (p_code mp). exact G. }
  assert (R : forall s mp, a_read h s mp = a_read h' s mp).
  { intros s mp. unfold a_read. destruct (zget (p_code mp) (a_props s)) as [p|] eqn:G; [|reflexivity]. rewrite (shown_ask h h' s _ A); [reflexivity|]. exists (p_code mp). exact G. }
  assert (RW : forall s mp, a_read_wr h s mp = a_read_wr h' s mp).
  { intros s mp. unfold a_read_wr. rewrite (shown_ask h h' s _ A); [reflexivity|]. destruct (zget (p_code mp) (a_props s)) as [p|] eqn:G; [exists (p_code mp); exact G|exact Logic.I]. }
  assert (P : forall e s mp, a_plain h e s mp = a_plain h' e s mp) by (intros e s mp; unfold a_plain; destruct (is_read_request e); [apply R|]; destruct (is_write_request e); [apply W|reflexivity]).
  assert (M : forall s m, a_received h s m = a_received h' s m).
  { intros s m. unfold a_received. rewrite (loop_ext _ _ W), (loop_ext _ _ (P (m_ESV m))). destruct (negb (is_request (m_ESV m))); [reflexivity|]. cbv zeta. destruct (is_write_read_request (m_ESV m)); [|reflexivity].
    destruct (a_loop (a_write h') s (m_sets m)) as [s1 [[ss n]|e]]; [|reflexivity]. rewrite (loop_ext _ _ RW). reflexivity. }
  intros ms. induction ms as [|m ms IH]; intros s; [reflexivity|]. cbn [a_run]. rewrite M. destruct (a_received h' s m) as [s1 r]. rewrite IH. reflexivity.
Qed.
