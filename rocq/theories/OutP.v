(** Lemmas for C112. *)
From Coq Require Import Decimal DecimalString.
From Verif Require Import PyBase BytesM EsvM MsgM PropM ObjM DbData DbM NodeM LocalM CtrlM BenchM LogM OutM
  SpecHex SpecWire SpecObj SpecDb SpecReq SpecNode SpecLocal SpecSrv SpecCtrl SpecEnd SpecSess SpecBench SpecLog SpecOut
  DictP BytesP WireP CodecP ObjP MapP ReqP NodeP LogP.
From Verif Require CtrlP BenchP DbP.
Require Import ZifyBool.

(** ** Digits *)
Lemma digit_char d : 0 <= d < 16 -> upper_digit (hex_digit d) d.
Proof.
  intros H. split; [lia|]. assert (In d (map Z.of_nat (seq 0 16))) as I by (apply in_map_iff; exists (Z.to_nat d); split; [lia|apply in_seq; lia]).
  cbn in I. repeat (destruct I as [<-|I]; [reflexivity|]). destruct I.
Qed.
Lemma digit_fun c d e : upper_digit c d -> upper_digit c e -> d = e.
Proof.
  intros (Hd & A) (He & B). assert (K : forall n x, String.get n "0123456789ABCDEF" = Some x -> (n < 16)%nat).
  { intros n x. do 16 (destruct n as [|n]; [intros _; lia|]). cbn. discriminate. }
  assert (Ld := K _ _ A). assert (Le := K _ _ B). clear K.
  assert (I : forall z, 0 <= z -> (Z.to_nat z < 16)%nat -> In (Z.to_nat z) (seq 0 16)) by (intros; apply in_seq; lia).
  pose proof (I _ Hd Ld) as Id. pose proof (I _ He Le) as Ie. clear I. cut (Z.to_nat d = Z.to_nat e); [lia|]. revert A B Id Ie. generalize (Z.to_nat d) (Z.to_nat e). intros n m A B Id Ie.
  cbn [seq In] in Id, Ie. repeat (destruct Id as [<-|Id]; [cbn in A; injection A as <-; repeat (destruct Ie as [<-|Ie]; [first [reflexivity|cbn in B; discriminate]|]); destruct Ie|]). destruct Id.
Qed.
Lemma digit_plain c d : upper_digit c d -> c <> " "%char /\ c <> ":"%char.
Proof.
  intros (_ & A). revert A. generalize (Z.to_nat d). intros n A. split; intros ->; do 16 (destruct n as [|n]; [discriminate|]); cbn in A; discriminate.
Qed.
Lemma spells_fun s : forall a z y, spells a s z -> spells a s y -> z = y.
Proof.
  induction s as [|c s IH]; cbn; intros a z y; [congruence|]. intros (d & D & A) (e & E & B). rewrite (digit_fun c d e D E) in A. exact (IH _ _ _ A B).
Qed.
Lemma spells_plain s : forall a z, spells a s z -> plain_name s.
Proof. induction s as [|c s IH]; cbn; intros a z; [auto|]. intros (d & D & A). apply digit_plain in D as (D1 & D2). eauto. Qed.
Lemma number_fun w s z y : hex_number w z s -> hex_number w y s -> z = y.
Proof. intros (A & _) (B & _). exact (spells_fun _ _ _ _ A B). Qed.
Lemma number_plain w s z : hex_number w z s -> plain_name s.
Proof. intros (A & _). exact (spells_plain _ _ _ A). Qed.
Lemma digits_spell f : forall z acc y, 0 <= z < 16 ^ Z.of_nat f -> spells z acc y -> spells 0 (hex_digits f z acc) y.
Proof.
  induction f as [|f IH]; intros z acc y H S; cbn [hex_digits].
  - cbn in H. assert (z = 0) as -> by lia. exact S.
  - destruct (z <? 16) eqn:E.
    + exists z. split; [apply digit_char; lia|]. exact S.
    + rewrite Nat2Z.inj_succ, Z.pow_succ_r in H by lia. pose proof (Z.div_mod z 16 ltac:(lia)) as D. pose proof (Z.mod_pos_bound z 16 ltac:(lia)) as M.
      apply IH; [split; [lia|]; nia|]. exists (z mod 16). split; [apply digit_char; lia|]. rewrite <- D. exact S.
Qed.
Lemma digits_first f : forall z acc, 0 <= z < 16 ^ Z.of_nat f -> (1 <= f)%nat -> z <> 0 -> exists c r, hex_digits f z acc = String c r /\ c <> "0"%char.
Proof.
  induction f as [|f IH]; intros z acc H L N; [lia|]. cbn [hex_digits]. destruct (z <? 16) eqn:E.
  - do 2 eexists. split; [reflexivity|]. intros K. pose proof (digit_char z ltac:(lia)) as D. rewrite K in D. pose proof (digit_fun "0" z 0 D) as F. apply N, F. split; [lia|reflexivity].
  - rewrite Nat2Z.inj_succ, Z.pow_succ_r in H by lia. pose proof (Z.div_mod z 16 ltac:(lia)) as D. pose proof (Z.mod_pos_bound z 16 ltac:(lia)) as M.
    destruct f as [|f]; [cbn in H; lia|]. apply IH; [split; [lia|]; nia|lia|]. nia.
Qed.
Lemma zeros_spell n s z : spells 0 s z -> spells 0 (zeros n ++ s) z.
Proof. intros H. induction n as [|n IH]; [exact H|]. exists 0. split; [split; [lia|reflexivity]|]. exact IH. Qed.
Lemma zeros_length n : String.length (zeros n) = n.
Proof. induction n; cbn; congruence. Qed.
Lemma log_fuel z : 0 <= z -> z < 16 ^ Z.of_nat (S (Z.to_nat (Z.log2 z))).
Proof.
  intros H. rewrite Nat2Z.inj_succ, Z2Nat.id by apply Z.log2_nonneg. destruct (Z.eq_dec z 0) as [->|N]; [reflexivity|]. pose proof (Z.log2_spec z ltac:(lia)) as (_ & L).
  eapply Z.lt_le_trans; [exact L|]. apply Z.pow_le_mono_l. pose proof (Z.log2_nonneg z). lia.
Qed.
Lemma pct_X_number w z : 0 <= z -> (1 <= w)%nat -> hex_number w z (pct_X w z).
Proof.
  intros H L. unfold pct_X. set (s := hex_digits _ _ _). cbv zeta. assert (A : spells 0 s z) by (apply digits_spell; [split; [lia|apply log_fuel; lia]|reflexivity]).
  split; [apply zeros_spell; exact A|]. rewrite slen_app, zeros_length. split; [lia|]. destruct (Nat.le_gt_cases (String.length s) w) as [K|K]; [left; lia|]. right.
  replace (w - String.length s)%nat with 0%nat by lia. cbn [zeros append]. destruct (Z.eq_dec z 0) as [->|N]; [cbn in s; unfold s in K; cbn in K; lia|].
  apply digits_first; [split; [lia|apply log_fuel; lia]|lia|exact N].
Qed.
Lemma upper_bytes b : bytes_ok b -> hex_bytes b (to_hex_upper b).
Proof.
  induction b as [|x b IH]; intros H; cbn; [reflexivity|]. apply Forall_cons_iff in H as (Hx & H). unfold byte_ok in Hx. do 3 eexists. split; [reflexivity|].
  split; [apply digit_char; split; [apply Z.div_pos; lia|apply Z.div_lt_upper_bound; lia]|]. split; [apply digit_char; apply Z.mod_pos_bound; lia|]. exact (IH H).
Qed.
Lemma bytes_fun b : forall b' s, hex_bytes b s -> hex_bytes b' s -> b = b'.
Proof.
  induction b as [|x b IH]; intros [|y b'] s; cbn; intros A B.
  - reflexivity.
  - subst. destruct B as (c & d & t & E & _). discriminate.
  - subst. destruct A as (c & d & t & E & _). discriminate.
  - destruct A as (c & d & t & -> & A1 & A2 & A3), B as (c' & d' & t' & E & B1 & B2 & B3). injection E as <- <- <-.
    pose proof (digit_fun _ _ _ A1 B1). pose proof (digit_fun _ _ _ A2 B2). f_equal; [|exact (IH _ _ A3 B3)].
    rewrite (Z.div_mod x 16), (Z.div_mod y 16) by lia. congruence.
Qed.
Lemma bytes_plain b : forall s, hex_bytes b s -> plain_name s.
Proof.
  induction b as [|x b IH]; cbn; intros s; [intros ->; exact Logic.I|]. intros (c & d & t & -> & A & B & C). apply digit_plain in A as (A1 & A2), B as (B1 & B2). cbn. repeat (split; [assumption|]). exact (IH _ C).
Qed.
Lemma blank_starts s : stops (String " " s).
Proof. do 2 eexists. split; [reflexivity|now left]. Qed.

(** ** Pieces *)
Lemma pieces_join {A} (P : A -> string -> Prop) f l : Forall (fun x => P x (f x)) l -> pieces P l (join f l).
Proof. induction 1; cbn; constructor; assumption. Qed.
Lemma pieces_inv {A} (P : A -> string -> Prop) l s : pieces P l s -> match l with [] => s = ""%string | x :: r => exists u t, P x u /\ pieces P r t /\ s = (u ++ t)%string end.
Proof. intros H. destruct H as [|x l u t H K]; [reflexivity|]. exists u, t. auto. Qed.
Lemma pieces_fun {A} (P : A -> string -> Prop) : (forall x u, P x u -> u <> ""%string) ->
  (forall x y u v s t, P x u -> P y v -> (u ++ s = v ++ t)%string -> x = y /\ s = t) ->
  forall l l' s, pieces P l s -> pieces P l' s -> l = l'.
Proof.
  intros N D l. induction l as [|x l IH]; intros [|y l'] s H K; apply pieces_inv in H, K.
  - reflexivity.
  - subst. destruct K as (u & v & Pu & _ & E). exfalso. apply (N _ _ Pu). destruct u; [reflexivity|discriminate].
  - subst. destruct H as (u & v & Pu & _ & E). exfalso. apply (N _ _ Pu). destruct u; [reflexivity|discriminate].
  - destruct H as (u & v & Pu & Pv & E), K as (u' & v' & Pu' & Pv' & E'). rewrite E in E'. destruct (D _ _ _ _ _ _ Pu Pu' E') as (-> & ->). f_equal. exact (IH _ _ Pv Pv').
Qed.
Lemma plain_app a b : plain_name a -> plain_name b -> plain_name (a ++ b).
Proof. induction a as [|c a IH]; cbn; intros A B; [exact B|]. destruct A as (A1 & A2 & A). auto. Qed.
Lemma sapp_inv_r a : forall b c, (a ++ c = b ++ c)%string -> a = b.
Proof.
  induction a as [|x a IH]; intros [|y b] c E; cbn in E.
  - reflexivity.
  - apply (f_equal String.length) in E. cbn in E. rewrite slen_app in E. lia.
  - apply (f_equal String.length) in E. cbn in E. rewrite slen_app in E. lia.
  - assert (x = y) as -> by congruence. f_equal. apply (IH b c). congruence.
Qed.

(** ** uechopost *)
Lemma L_C112_post : forall a m, received_from a m -> exists t, post_lines (Some m) = Some [t] /\ answer_line t (fst a) (m_SEOJ m) (m_ESV m) (m_props m).
Proof.
  intros a m (f & (En & Ty & Ca) & ->). cbn [post_lines set_from m_from m_SEOJ m_ESV m_props]. eexists. split; [reflexivity|].
  assert (S : 0 <= m_SEOJ f) by (rewrite <- Ca; apply Z.mod_pos_bound; lia).
  assert (E : 0 <= m_ESV f) by (destruct En as ((E & _) & _); exact E).
  assert (Q : Forall (fun p => 0 <= p_code p) (m_props f)).
  { destruct En as (_ & En). destruct (two_blocks (m_ESV f)) eqn:T.
    - rewrite <- Ca. cbn [carried m_props]. rewrite T. constructor.
    - destruct En as (_ & En). eapply Forall_impl; [|exact En]. intros p H. destruct H as (H & _). unfold byte_ok in H. lia. }
  do 3 eexists. split; [apply pct_X_number; [exact S|lia]|]. split; [apply pct_X_number; [exact E|lia]|]. split; [|reflexivity].
  apply pieces_join. destruct Ty as (Ty & _). rewrite Forall_forall in *. intros p I. do 2 eexists. split; [apply pct_X_number; [exact (Q p I)|lia]|]. split; [apply upper_bytes; exact (Ty p I)|reflexivity].
Qed.
Lemma L_C112_post_none : post_lines None = Some [].
Proof. reflexivity. Qed.
Lemma L_C112_post_readable : forall t ip seoj esv ps ip' seoj' esv' ps', answer_line t ip seoj esv ps -> answer_line t ip' seoj' esv' ps' ->
  plain_name ip -> plain_name ip' -> ip = ip' /\ seoj = seoj' /\ esv = esv' /\ ps = ps'.
Proof.
  intros t ip seoj esv ps ip' seoj' esv' ps' (a & b & s & A & B & S & ->) (a' & b' & s' & A' & B' & S' & E) P P'.
  apply name_ends in E as (<- & E); [|assumption..|apply blank_starts|apply blank_starts]. cbn [append] in E. assert (E1 : (a ++ String " " (b ++ String " " s) = a' ++ String " " (b' ++ String " " s'))%string) by congruence.
  apply name_ends in E1 as (<- & E1); [|exact (number_plain _ _ _ A)|exact (number_plain _ _ _ A')|apply blank_starts..]. assert (E2 : (b ++ String " " s = b' ++ String " " s')%string) by congruence.
  apply name_ends in E2 as (<- & E2); [|exact (number_plain _ _ _ B)|exact (number_plain _ _ _ B')|apply blank_starts..]. assert (s = s') as <- by congruence.
  split; [reflexivity|]. split; [exact (number_fun _ _ _ _ A A')|]. split; [exact (number_fun _ _ _ _ B B')|]. refine (pieces_fun _ _ _ _ _ _ S S').
  - intros p u (c & h & C & H & ->). destruct c; discriminate.
  - intros p q u v x y (c & h & C & H & ->) (c' & h' & C' & H' & ->) K. rewrite !sapp_assoc in K. cbn [append] in K.
    apply name_ends in K as (<- & K); [|exact (number_plain _ _ _ C)|exact (number_plain _ _ _ C')|apply blank_starts..].
    injection K as K1. rewrite ?sapp_assoc in K1. cbn [append] in K1.
    apply name_ends in K1 as (<- & K1); [|exact (bytes_plain _ _ H)|exact (bytes_plain _ _ H')|apply blank_starts..].
    split; [|congruence]. destruct p, q. cbn in *. f_equal; [exact (number_fun _ _ _ _ C C')|exact (bytes_fun _ _ _ H H')].
Qed.
(** An answer to a write-and-read request (0x7E, 0x5E) shows none of its properties. *)
Lemma L_C112_both_refuted : forall a m, received_from a m -> m_ESV m = 0x7E \/ m_ESV m = 0x5E -> exists t, post_lines (Some m) = Some [t] /\ answer_line t (fst a) (m_SEOJ m) (m_ESV m) [] /\
  forall sets gets, post_lines (Some (mkmsg (m_TID m) (m_SEOJ m) (m_DEOJ m) (m_ESV m) (m_props m) sets gets (m_from m) (m_to m))) = Some [t].
Proof.
  intros a m R V. destruct (L_C112_post a m R) as (t & T & L). exists t. split; [exact T|]. assert (E : m_props m = []).
  { destruct R as (f & (_ & _ & Ca) & ->). cbn [set_from m_props m_ESV] in *. rewrite <- Ca. cbn [carried m_props]. destruct V as [-> | ->]; reflexivity. }
  rewrite E in L. split; [exact L|]. intros sets gets. exact T.
Qed.

(** ** A line for each node *)
Lemma enumerate_numbered {A} (l : list A) : forall i, enumerate i l = combine (seq i (length l)) l.
Proof. induction l as [|x l IH]; intros i; cbn; [reflexivity|]. now rewrite IH. Qed.
Lemma enumerate_map {A B} (f : A -> B) l : forall i, enumerate i (map f l) = map (fun '(j, x) => (j, f x)) (enumerate i l).
Proof. induction l as [|x l IH]; intros i; cbn; [reflexivity|]. now rewrite IH. Qed.
Lemma enumerate_in {A} (l : list A) : forall i j x, In (j, x) (enumerate i l) -> In x l.
Proof. induction l as [|y l IH]; intros i j x; cbn; [auto|]. intros [E|I]; [left; congruence|right; eauto]. Qed.
Lemma join_map {A B} (f : A -> B) g l : join g (map f l) = join (fun x => g (f x)) l.
Proof. induction l as [|x l IH]; cbn; [reflexivity|]. now rewrite IH. Qed.
Lemma join_ext {A} (f g : A -> string) l : (forall x, f x = g x) -> join f l = join g l.
Proof. intros E. induction l as [|x l IH]; cbn; [reflexivity|]. now rewrite IH, E. Qed.
Lemma L_C112_list : forall n, Forall (fun o => 0 <= o_code o) (node_objects n) -> object_line (list_line n) (node_ip n) (map o_code (node_objects n)).
Proof.
  intros n H. do 2 eexists. split; [apply ljust_filled|]. split; [|reflexivity]. unfold numbered. rewrite <- enumerate_numbered, enumerate_map.
  assert (E : join (fun '(j, o) => ("[" ++ pct_d j ++ "] " ++ pct_X 6 (o_code o) ++ " ")%string) (enumerate 0 (node_objects n)) =
    join (fun '(j, c) => ("[" ++ pct_d j ++ "] " ++ pct_X 6 c ++ " ")%string) (map (fun '(j, x) => (j, o_code x)) (enumerate 0 (node_objects n)))).
  { rewrite join_map. apply join_ext. intros (j & o). reflexivity. }
  rewrite E. apply pieces_join. apply Forall_forall. intros (j & c) I. apply in_map_iff in I as ((j' & o) & K & I). injection K as <- <-. apply enumerate_in in I. rewrite Forall_forall in H.
  eexists. split; [apply pct_X_number; [exact (H o I)|lia]|]. reflexivity.
Qed.
Lemma numbered_inj {A} (l l' : list A) : numbered l = numbered l' -> l = l'.
Proof.
  intros E. apply (f_equal (map snd)) in E. unfold numbered in E. assert (K : forall (k : list A) i, map snd (combine (seq i (length k)) k) = k).
  { induction k as [|x k IH]; intros i; cbn; [reflexivity|]. now rewrite IH. }
  now rewrite !K in E.
Qed.
Lemma number_inj i j : number i = number j -> i = j.
Proof. intros E. apply decimal_inj in E. lia. Qed.
Lemma L_C112_list_readable : forall t ip codes ip' codes', object_line t ip codes -> object_line t ip' codes' -> plain_name ip -> plain_name ip' -> ip = ip' /\ codes = codes'.
Proof.
  intros t ip codes ip' codes' (p & s & F & S & ->) (p' & s' & F' & S' & E) P P'. apply (field_ends 15 ip ip') in E as (<- & E); [|assumption..|apply blank_starts|apply blank_starts].
  split; [reflexivity|]. cbn [append] in E. assert (s = s') as <- by congruence. apply numbered_inj. refine (pieces_fun _ _ _ _ _ _ S S').
  - intros (j & c) u (x & X & ->). discriminate.
  - intros (j & c) (j' & c') u v y z (x & X & ->) (x' & X' & ->) K. cbn [append] in K. assert (K0 : ((number j ++ String "]" (String " " (x ++ " "))) ++ y = (number j' ++ String "]" (String " " (x' ++ " "))) ++ z)%string) by congruence.
    assert (R : forall i k w, ((number i ++ String "]" (String " " (k ++ " "))) ++ w = (number i ++ "]") ++ String " " (k ++ String " " w))%string) by (intros; rewrite !sapp_assoc; cbn [append]; rewrite !sapp_assoc; reflexivity).
    rewrite !R in K0. apply name_ends in K0 as (J & K0); [|apply plain_app; [apply decimal_plain|cbn; repeat split; discriminate]..|apply blank_starts|apply blank_starts].
    assert (K1 : (x ++ String " " y = x' ++ String " " z)%string) by congruence. apply name_ends in K1 as (<- & K1); [|exact (number_plain _ _ _ X)|exact (number_plain _ _ _ X')|apply blank_starts..].
    split; [|congruence]. f_equal; [apply number_inj, (sapp_inv_r _ _ "]"), J|exact (number_fun _ _ _ _ X X')].
Qed.
(** After any received messages: a line for each node that announced objects. *)
Lemma announced_codes m codes : typed m -> carries_list m = Some codes -> Forall (fun c => 0 <= c) codes.
Proof.
  intros (T & _) C. unfold carries_list in C. destruct (m_props m) as [|p r]; [discriminate|]. destruct (list_property p); [|discriminate]. apply Forall_cons_iff in T as (T & _).
  apply (CtrlP.L_C45_instance_list _ _ T) in C as (_ & C). eapply Forall_impl; [|exact C]. intros c Hc. cbv beta in Hc. lia.
Qed.
Lemma last_codes ip ms codes : Forall (fun m => exists a, received_from a m) ms -> last_list ip ms = Some codes -> Forall (fun c => 0 <= c) codes.
Proof.
  induction ms as [|m ms IH]; intros H L; [discriminate|]. apply Forall_cons_iff in H as (Hm & H). cbn in L. destruct (last_list ip ms) as [l|]; [apply IH; [exact H|congruence]|].
  destruct (String.eqb (from_ip m) ip); [|discriminate]. unfold announces in L. destruct (_ && _); [|discriminate]. apply (announced_codes m); [|exact L].
  destruct Hm as (a & f & (_ & T & _) & ->). exact T.
Qed.
Lemma L_C112_found : forall (PS : PySet) w tr s c ms s' tr' rs, quiet w -> ln_ctl s = Some c -> c_found c = [] ->
  Forall (fun m => exists a, received_from a m) ms -> received_all w tr s ms = (s', tr', rs) ->
  exists c', ln_ctl s' = Some c' /\
  Forall2 (fun ip t => exists codes, last_list ip ms = Some codes /\ object_line t ip (firsts Z.eqb (0x0EF001 :: codes))) (firsts String.eqb (announcers ms)) (search_lines c') /\
  forall n, bench_lines (Z.of_nat n) c' = concat (repeat (search_lines c') n).
Proof.
  intros PS w tr s c ms s' tr' rs Q C F R E. destruct (CtrlP.L_C46_table PS w tr s c ms s' tr' rs Q C F R E) as (c' & C' & I & O & _). exists c'. split; [exact C'|]. split.
  - rewrite <- I. unfold search_lines. generalize (ctl_nodes c') O. clear - R. intros ns. induction ns as [|n ns IH]; intros O; cbn; [constructor|]. constructor.
    + destruct (O n (or_introl eq_refl)) as (codes & L & M). exists codes. split; [exact L|].
      assert (E : object_line (list_line n) (node_ip n) (map o_code (node_objects n))); [|rewrite M in E; exact E]. apply L_C112_list. apply Forall_forall. intros o Io.
      assert (K : In (o_code o) (firsts Z.eqb (0x0EF001 :: codes))) by (rewrite <- M; apply in_map, Io). apply (proj1 (firsts_in Z.eqb zeqb_eq _ _)) in K.
      destruct K as [<-|K]; [lia|]. exact (proj1 (Forall_forall _ _) (last_codes _ _ _ R L) _ K).
    + apply IH. intros k Ik. apply O. now right.
  - intros n. unfold bench_lines. now rewrite Nat2Z.id.
Qed.

(** ** With -v *)
Lemma named_label s : label s (named_part s).
Proof. destruct s; [left; split; reflexivity|right]. split; [discriminate|reflexivity]. Qed.
Lemma prop_lines_are name shown j ps : Forall (fun p => op_get p = 1 -> 0 <= op_code p /\ Forall bytes_ok (shown (op_code p))) ps ->
  forall k rest, exists us, prop_lines name j k ps (map (fun p => shown (op_code p)) (filter (fun p => op_get p =? 1) ps) ++ rest) = (us, rest) /\
  Forall2 (value_line j name shown) (filter (fun kp => op_get (snd kp) =? 1) (combine (seq k (length ps)) ps)) us.
Proof.
  induction ps as [|p ps IH]; intros H k rest; [exists []; split; [reflexivity|constructor]|]. apply Forall_cons_iff in H as (Hp & H). destruct (IH H (S k)) with (rest := rest) as (us & E & F).
  cbn [prop_lines filter length seq combine]. rewrite BenchP.required_is. cbn [snd]. destruct (op_get p =? 1) eqn:G; cbn [negb map app].
  - rewrite E. eexists. split; [reflexivity|]. constructor; [|exact F]. destruct Hp as (Hc & Hb); [lia|].
    do 3 eexists. split; [apply pct_X_number; [exact Hc|lia]|]. split; [apply named_label|]. split; [|reflexivity].
    apply pieces_join. eapply Forall_impl; [|exact Hb]. intros b B. eexists. split; [apply upper_bytes; exact B|reflexivity].
  - exists us. split; [exact E|exact F].
Qed.
Lemma obj_lines_are name shown os : Forall (fun o => 0 <= o_code o) os ->
  (forall code k, In (code, k) (mandatory os) -> 0 <= k /\ Forall bytes_ok (shown code k)) -> forall j,
  exists blocks, obj_lines name j os (map (fun '(code, k) => shown code k) (mandatory os)) = concat blocks /\
  Forall2 (object_block name shown) (combine (seq j (length os)) os) blocks.
Proof.
  induction os as [|o os IH]; intros Hc Hm j; [exists []; split; [reflexivity|constructor]|]. apply Forall_cons_iff in Hc as (Ho & Hc).
  destruct (IH Hc) with (j := S j) as (bs & E & F). { intros code k I. apply Hm. unfold mandatory. cbn [flat_map]. apply in_or_app. now right. }
  destruct (prop_lines_are (name o) (shown (o_code o)) j (dvals (o_props o))) with (k := 0%nat) (rest := map (fun '(code, k) => shown code k) (mandatory os)) as (us & E1 & F1).
  { apply Forall_forall. intros p Ip G. apply Hm. unfold mandatory. cbn [flat_map]. apply in_or_app. left. apply in_map_iff. exists p. split; [reflexivity|]. apply filter_In. split; [exact Ip|lia]. }
  exists ((obj_line j o :: us) :: bs). split.
  - unfold mandatory at 1. cbn [flat_map obj_lines]. fold (mandatory os). rewrite map_app, map_map. rewrite E1. cbn [concat app]. now rewrite E.
  - cbn [length seq combine]. constructor; [|exact F]. do 2 eexists. split; [reflexivity|]. split; [|exact F1]. do 2 eexists. split; [apply pct_X_number; [exact Ho|lia]|]. split; [apply named_label|reflexivity].
Qed.
Lemma L_C112_block : forall name shown i n first, Forall (fun o => 0 <= o_code o) (node_objects n) ->
  (forall code k, In (code, k) (mandatory (node_objects n)) -> 0 <= k /\ Forall bytes_ok (shown code k)) ->
  node_block i n first name shown (node_lines name i n first (map (fun '(code, k) => shown code k) (mandatory (node_objects n)))).
Proof.
  intros name shown i n first H M. destruct (obj_lines_are name shown (node_objects n) H M 0) as (bs & E & F). do 2 eexists. split; [apply ljust_filled|]. split; [exact F|].
  unfold node_lines. rewrite E. destruct i; reflexivity.
Qed.
Lemma L_C112_shown_partial : forall (PS : PySet) wc wd jc jd ac an n S z x name i,
  quiet wc -> reliable wc -> quiet wd -> reliable wd -> dest_addr (DNode n) = Some an ->
  joined jc jd an x -> mirrors (x_dev x) S -> store_ok S ->
  Forall (fun o => 0 <= o_code o) (node_objects n) ->
  (forall code k, In (code, k) (mandatory (node_objects n)) -> call_ok S code (KRead [k])) ->
  exists x' ds, tool_node wc wd jc jd ac an n z x = (x', Ok ds) /\ node_block i n "" name (on_screen S) (bench_node name i n ds) /\ forall man, node_block i n (manufacturer_part man) name (on_screen S) (search_node name i n man ds).
Proof.
  intros PS wc wd jc jd ac an n S z x name i Qc Rc Qd Rd D J M St H C.
  destruct (BenchP.L_C81_shown_partial PS wc wd jc jd ac an n S z x Qc Rc Qd Rd D J M St C) as (x' & E & _). do 2 eexists. split; [exact E|].
  assert (K : forall code k, In (code, k) (mandatory (node_objects n)) -> 0 <= k /\ Forall bytes_ok (on_screen S code k)).
  { intros code k I. destruct (C code k I) as (_ & (_ & En) & _). split.
    - cbn in En. destruct En as (_ & En). apply Forall_cons_iff in En as ((En & _) & _). cbn in En. unfold byte_ok in En. lia.
    - unfold on_screen. destruct (S code) as [t|] eqn:St'; [|constructor]. constructor; [|constructor]. unfold show. cbn [p_data]. destruct (t k) as [l|] eqn:T; [|constructor].
      destruct (cl_read l); [|constructor]. exact (proj1 (St _ _ _ _ St' T)). }
  split; [exact (L_C112_block name (on_screen S) i n "" H K)|]. intros man. exact (L_C112_block name (on_screen S) i n (manufacturer_part man) H K).
Qed.
Lemma L_C112_manufacturer : manufacturer_part None = ""%string /\ forall m,
  match m_props m with
  | [] => manufacturer_part (Some m) = ""%string
  | p :: _ => bytes_ok (p_data p) -> exists h, hex_bytes (p_data p) h /\ manufacturer_part (Some m) = ("(" ++ match manufacturer_of (be_val (p_data p)) with Some e => snd e | None => h end ++ ")")%string
  end.
Proof.
  split; [reflexivity|]. intros m. destruct (m_props m) as [|p r] eqn:E; [unfold manufacturer_part; now rewrite E|]. intros B. exists (to_hex_upper (p_data p)). split; [apply upper_bytes, B|].
  unfold manufacturer_part. rewrite E. unfold get_manufacturer_name. destruct (DbP.L_C58_manufacturer (be_val (p_data p))) as (_ & _ & K & _). rewrite (K _ B eq_refl).
  destruct (manufacturer_of (be_val (p_data p))); reflexivity.
Qed.
