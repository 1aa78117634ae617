(** Lemmas for C114: networks that change at any time. *)
From Verif Require Import PyBase BytesM EsvM MsgM PropM ObjM DbData DbM NodeM LocalM CtrlM
  SpecWire SpecObj SpecReq SpecDb SpecNode SpecProf SpecLocal SpecSrv SpecCtrl SpecEnd SpecLife SpecSelf SpecDisc SpecSeek SpecField
  DictP BytesP WireP CodecP ObjP MapP ReqP DbP NodeP ProfP LocalP AnswerP SrvP CtrlP EndP NetP LifeP SelfP DiscP SeekP.
From Verif Require Import SpecReq.
Require Import ZifyBool Permutation.

Section Field.
Context {PS : PySet}.
Variables (wc : os) (ac : addr) (s0 : lnode) (c0 : ctl).
Hypothesis (Qc : quiet wc) (Rc : reliable wc).
Definition dev_ok (d : site) (v : addr * list Z * nat) : Prop :=
  let '(a, l, n) := v in
  t_addr d = a /\ servers_of (t_node d) = n /\ quiet (t_os d) /\ reliable (t_os d) /\ Forall (fun k => 0 <= k < 2 ^ 24) l /\ NoDup (0x0EF001 :: l) /\
  (exists codes, ready codes (t_node d) /\ device_codes codes = l) /\ (small l -> listens (t_node d)) /\
  (forall j v, server_at (t_node d) j = Some v -> s_obs v = [ONode]).
Definition answer_ok (x : list Z * addr) (y : addr * list Z) : Prop := snd x = fst y /\ is_answer (snd y) (fst x) /\ small (snd y) /\ Forall (fun k => 0 <= k < 2 ^ 24) (snd y) /\ NoDup (0x0EF001 :: snd y).
Definition finv (x : field) (v : view) : Prop :=
  t_os (f_ctl x) = wc /\ t_addr (f_ctl x) = ac /\ seeker s0 (t_node (f_ctl x)) /\ Forall the_search (f_mail x) /\ length (f_mail x) = v_mail v /\
  Forall2 dev_ok (f_devs x) (v_nodes v) /\ Forall2 answer_ok (f_sent x) (v_answers v) /\
  forall ip, match v_last v ip with
    | Some (a, l) => exists nd, shows (t_node (f_ctl x)) ip (Some nd) /\ depicts nd a l
    | None => shows (t_node (f_ctl x)) ip (sget ip (c_found c0))
    end.

Lemma hosts_dev d l : hosts d l -> dev_ok d (t_addr d, l, servers_of (t_node d)).
Proof.
  intros H. destruct (hosts_ready d l H) as (codes & RD & DC & ND). destruct H as (_ & Rg & Li & Q & R & _). do 2 (split; [reflexivity|]). do 4 (split; [assumption|]).
  split; [eauto|]. split; [auto|]. intros j v V. exact (proj2 (proj2 Li j v V)).
Qed.
Lemma forall2_upd {A B} (P : A -> B -> Prop) l m k x y : Forall2 P l m -> P x y -> Forall2 P (upd l k x) (upd m k y).
Proof. intros F H. revert k. induction F as [|a b l m Hab F IH]; intros [|k]; cbn [upd]; constructor; auto. Qed.
Lemma forall2_upd_same {A B} (P : A -> B -> Prop) l m k x y : Forall2 P l m -> nth_error m k = Some y -> P x y -> Forall2 P (upd l k x) m.
Proof. intros F. revert k. induction F as [|a b l m Hab F IH]; intros [|k] E H; cbn [upd nth_error] in *; try discriminate; [assert (b = y) by congruence; subst; constructor; auto|constructor; eauto]. Qed.
Lemma forall2_nth {A B} (P : A -> B -> Prop) l m k : Forall2 P l m -> match nth_error l k, nth_error m k with Some x, Some y => P x y | None, None => True | _, _ => False end.
Proof. intros F. revert k. induction F as [|a b l m Hab F IH]; intros [|k]; cbn [nth_error]; auto. apply IH. Qed.

Lemma field_one x v e : (forall k d l, e = FTurn k d l -> hosts d l) -> finv x v -> finv (field_step x e) (view_step (length (open_ifs s0)) (servers_of s0) v e).
Proof.
  intros Ho (Eo & Ea & Sk & Fm & Lm & Fd & Fs & K). destruct e as [|k j i|j i|k d l]; cbn [field_step view_step].
  - destruct (ctl_search _ _ _) as [[s1 tr1] rc] eqn:Se. pose proof Sk as (Es & Ei & Li & T & c & C).
    destruct (search_mail _ _ _ c s1 tr1 rc C T Se) as (Fn & G & C1 & Ln). rewrite Eo in Ln. specialize (Ln Rc). pose proof (search_keeps _ _ _ c s1 tr1 rc C T Se) as T1.
    split; [exact Eo|]. split; [exact Ea|]. cbn [f_ctl f_mail f_devs f_sent t_node t_tr]. split.
    { split; [unfold servers_of in *; rewrite G; exact Es|]. split; [unfold open_ifs in *; rewrite G; exact Ei|]. split; [exact (listens_same _ _ G Li)|]. split; [exact T1|eauto]. }
    split; [apply Forall_app; split; [exact Fm|exact Fn]|]. split; [rewrite app_length; cbn [v_mail]; rewrite Lm; f_equal; rewrite <- Ei; exact Ln|]. split; [exact Fd|]. split; [exact Fs|].
    cbn [v_last]. assert (Y : forall ip o, shows (t_node (f_ctl x)) ip o -> shows s1 ip o) by (intros ip o (c' & X1 & X2); exists c'; split; [congruence|exact X2]).
    intros ip. specialize (K ip). destruct (v_last v ip) as [(a, l)|]; [destruct K as (nd & Sh & De); exists nd; auto|auto].
  - pose proof (forall2_nth _ _ _ k Fd) as N. destruct (nth_error (f_devs x) k) as [d|] eqn:Kd, (nth_error (v_nodes v) k) as [[[a l] n]|] eqn:Kv; try contradiction.
    2:{ exact (conj Eo (conj Ea (conj Sk (conj Fm (conj Lm (conj Fd (conj Fs K))))))). }
    destruct (nth_error (f_mail x) i) as [b|] eqn:Mb.
    2:{ replace (i <? v_mail v)%nat with false; [exact (conj Eo (conj Ea (conj Sk (conj Fm (conj Lm (conj Fd (conj Fs K)))))))|]. symmetry. apply Nat.ltb_ge. rewrite <- Lm. apply nth_error_None. exact Mb. }
    replace (i <? v_mail v)%nat with true. 2:{ symmetry. apply Nat.ltb_lt. rewrite <- Lm. apply nth_error_Some. congruence. }
    assert (Tb : the_search b) by (rewrite Forall_forall in Fm; apply Fm; exact (nth_error_In _ _ Mb)).
    pose proof N as (Na & Ns & Nq & Nr & Ng & Nd & (codes & RD & DC) & Sm & Ob). cbn [andb].
    assert (Dead : deliver (t_os d) (t_tr d) (t_node d) j (b, t_addr (f_ctl x)) = (t_node d, t_tr d) -> (j <? n)%nat && (zlen l <=? 84) = false ->
      finv (mkfield (f_ctl x) (f_mail x) (upd (f_devs x) k (hears d j b (t_addr (f_ctl x)))) (f_sent x ++ map (fun y => (y, t_addr d)) (reach (t_addr (f_ctl x)) (since (t_tr d) (t_tr (hears d j b (t_addr (f_ctl x)))))))) 
           (if (j <? n)%nat && (zlen l <=? 84) then mkview (v_mail v) (v_nodes v) (v_answers v ++ [(a, l)]) (v_last v) else v)).
    { intros D Zz. rewrite Zz. unfold hears. rewrite D. cbn [t_tr]. assert (Sn : since (t_tr d) (t_tr d) = []) by (rewrite <- (app_nil_r (t_tr d)) at 2; now rewrite since_app). rewrite Sn. change (reach (t_addr (f_ctl x)) []) with (@nil (list Z)). cbn [map]. rewrite app_nil_r.
      replace (mksite _ _ _ _ _) with d by (destruct d; reflexivity).
      split; [exact Eo|]. split; [exact Ea|]. split; [exact Sk|]. split; [exact Fm|]. split; [exact Lm|]. split; [exact (forall2_upd_same _ _ _ _ _ _ Fd Kv N)|]. split; [exact Fs|exact K]. }
    destruct (server_at (t_node d) j) as [u|] eqn:V.
    2:{ apply Dead; [apply kill_dead; rewrite V; exact I|]. assert (Lj : (j <? n)%nat = false) by (apply Nat.ltb_ge; rewrite <- Ns; apply nth_error_None; exact V). now rewrite Lj. }
    assert (Lj : (j <? n)%nat = true). { apply Nat.ltb_lt. rewrite <- Ns. apply nth_error_Some. unfold server_at in V. rewrite V. discriminate. }
    destruct (s_alive u) eqn:Al.
    2:{ apply Dead; [apply kill_dead; rewrite V; exact Al|]. destruct (Z.leb_spec (zlen l) 84) as [B|B]; [exfalso; destruct (Sm B) as (_ & W); destruct (W j u V); congruence|]. now rewrite andb_false_r. }
    clear Dead. unfold hears. destruct (deliver (t_os d) (t_tr d) (t_node d) j (b, t_addr (f_ctl x))) as [s' tr'] eqn:H. rewrite Lj. cbn [andb t_tr].
    destruct (device_hears PS (t_os d) (t_tr d) (t_node d) codes (t_addr (f_ctl x)) j b s' tr' u Nq Nr RD Tb V Al (Ob j u V) H) as (RD' & Es' & Ob' & evs & -> & A1 & A2).
    rewrite DC in A1, A2. rewrite since_app.
    assert (Ok' : dev_ok (mksite (t_os d) (t_addr d) s' (t_tr d ++ evs) (t_from d)) (a, l, n)).
    { split; [exact Na|]. split; [cbn [t_node]; congruence|]. do 4 (split; [assumption|]). split; [eauto|]. split.
      - intros B. destruct (A1 B) as (G & _). exact (listens_same _ _ G (Sm B)).
      - intros j' v' X. destruct (Ob' j' v' X) as (v0 & X0 & ->). exact (Ob j' v0 X0). }
    assert (Fd' := forall2_upd_same _ _ _ _ _ _ Fd Kv Ok').
    destruct (Z.leb_spec (zlen l) 84) as [B|B].
    + destruct (A1 B) as (_ & y & Ry & Ay). rewrite Ry. split; [exact Eo|]. split; [exact Ea|]. split; [exact Sk|]. split; [exact Fm|]. split; [exact Lm|]. split; [exact Fd'|]. split; [|exact K].
      cbn [f_sent v_answers map]. apply Forall2_app; [exact Fs|]. constructor; [|constructor]. split; [exact Na|]. cbn [fst snd]. auto.
    + rewrite (A2 ltac:(lia)). cbn [map]. rewrite app_nil_r. exact (conj Eo (conj Ea (conj Sk (conj Fm (conj Lm (conj Fd' (conj Fs K))))))).
  - pose proof (forall2_nth _ _ _ i Fs) as N. destruct (nth_error (f_sent x) i) as [[b a1]|] eqn:Kd, (nth_error (v_answers v) i) as [[a l]|] eqn:Kv; try contradiction.
    2:{ exact (conj Eo (conj Ea (conj Sk (conj Fm (conj Lm (conj Fd (conj Fs K))))))). }
    destruct N as (X & An & Sm & Rg & ND). cbn [fst snd] in X, An, Sm, Rg, ND. subst a1. pose proof Sk as (Es & Ei & Li & T & c & C).
    unfold hears. destruct (deliver _ _ _ _ _) as [s' tr'] eqn:H. destruct (server_at (t_node (f_ctl x)) j) as [u|] eqn:V.
    2:{ assert (X : deliver (t_os (f_ctl x)) (t_tr (f_ctl x)) (t_node (f_ctl x)) j (b, a) = (t_node (f_ctl x), t_tr (f_ctl x))) by (apply kill_dead; rewrite V; exact I).
        assert (s' = t_node (f_ctl x) /\ tr' = t_tr (f_ctl x)) as (-> & ->) by (split; congruence). replace (mksite _ _ _ _ _) with (f_ctl x) by (destruct (f_ctl x); reflexivity).
        replace (j <? servers_of s0)%nat with false; [exact (conj Eo (conj Ea (conj Sk (conj Fm (conj Lm (conj Fd (conj Fs K)))))))|]. symmetry. apply Nat.ltb_ge. rewrite <- Es. apply nth_error_None. exact V. }
    replace (j <? servers_of s0)%nat with true. 2:{ symmetry. apply Nat.ltb_lt. rewrite <- Es. apply nth_error_Some. unfold server_at in V. rewrite V. discriminate. }
    destruct (proj2 Li j u V) as (Al & Ob). rewrite Eo in H.
    destruct (controller_hears PS wc _ (t_node (f_ctl x)) c l a b j u s' tr' Qc C An Sm ND Rg V Al Ob H) as (G & c' & C' & _ & Fo & nd & Fn & Dn).
    pose proof (answer_tid PS wc _ (t_node (f_ctl x)) c l a b j u s' tr' C An V Al Ob H) as Tn.
    split; [exact Eo|]. split; [exact Ea|]. cbn [f_ctl f_mail f_devs f_sent t_node t_tr]. split.
    { split; [unfold servers_of in *; rewrite G; exact Es|]. split; [unfold open_ifs in *; rewrite G; exact Ei|]. split; [exact (listens_same _ _ G Li)|]. split; [rewrite Tn; exact T|eauto]. }
    split; [exact Fm|]. split; [exact Lm|]. split; [exact Fd|]. split; [exact Fs|]. cbn [v_last]. intros ip. specialize (K ip). destruct (String.eqb_spec ip (fst a)) as [->|Ni].
    + exists nd. split; [exists c'; auto|exact Dn].
    + assert (Y : forall o, shows (t_node (f_ctl x)) ip o -> shows s' ip o) by (intros o (c1 & X1 & X2); exists c'; split; [exact C'|]; rewrite (Fo ip Ni); congruence).
      destruct (v_last v ip) as [(a1, l1)|]; [destruct K as (n1 & Sh & De); exists n1; auto|auto].
  - split; [exact Eo|]. split; [exact Ea|]. split; [exact Sk|]. split; [exact Fm|]. split; [exact Lm|]. split; [|split; [exact Fs|exact K]].
    cbn [f_devs v_nodes]. apply forall2_upd; [exact Fd|]. apply hosts_dev. apply (Ho k d l). reflexivity.
Qed.
Lemma field_all l : (forall k d ls, In (FTurn k d ls) l -> hosts d ls) -> forall x v, finv x v -> finv (field_run l x) (view_run (length (open_ifs s0)) (servers_of s0) l v).
Proof.
  induction l as [|e l IH]; intros Ho x v F; [exact F|]. cbn [field_run view_run fold_left]. apply IH; [intros k d ls I; apply (Ho k d ls); now right|].
  apply field_one; [|exact F]. intros k d ls ->. apply (Ho k d ls). now left.
Qed.
End Field.

Lemma L_C114_field : forall (PS : PySet) w a s c tr devs ls l, quiet w -> reliable w -> ln_ctl s = Some c -> 0 <= g_tid (ln_mgr s) <= 65535 -> listens s ->
  Forall2 hosts devs ls -> (forall k d ls, In (FTurn k d ls) l -> hosts d ls) ->
  let nodes := map (fun x => (t_addr (fst x), snd x, servers_of (t_node (fst x)))) (combine devs ls) in
  let x := field_run l (mkfield (mksite w a s tr (length tr)) [] devs []) in
  let v := view_run (length (open_ifs s)) (servers_of s) l (mkview 0 nodes [] (fun _ => None)) in
  exists c', ln_ctl (t_node (f_ctl x)) = Some c' /\ listens (t_node (f_ctl x)) /\
  (* every node is shown as it was when it gave the answer heard last from its address *)
  (forall ip a1 l1, v_last v ip = Some (a1, l1) -> exists nd, (forall w tr, get_node w tr c' (GATup ip) = Ok (Some nd)) /\ depicts nd a1 l1) /\
  (forall ip, v_last v ip = None -> forall w tr, get_node w tr c' (GATup ip) = get_node w tr c (GATup ip)).
Proof.
  intros PS w a s c tr devs ls l Q R C T Li Hd Ho nodes x v.
  assert (F : finv w a s c x v).
  { apply field_all; [exact Q|exact R|exact Ho|]. split; [reflexivity|]. split; [reflexivity|]. split; [split; [reflexivity|]; split; [reflexivity|]; split; [exact Li|]; split; [exact T|eauto]|].
    split; [constructor|]. split; [reflexivity|]. split; [|split; [constructor|]].
    - cbn [f_devs v_nodes]. subst nodes. clear - Hd. induction Hd as [|d k devs ls H F IH]; cbn [combine map]; constructor; [exact (hosts_dev d k H)|exact IH].
    - intros ip. cbn [v_last]. exists c. auto. }
  destruct F as (_ & _ & (_ & _ & L' & _ & c' & C') & _ & _ & _ & _ & K). exists c'. split; [exact C'|]. split; [exact L'|]. split.
  - intros ip a1 l1 E. specialize (K ip). rewrite E in K. destruct K as (nd & (c1 & X1 & X2) & De). exists nd. split; [|exact De]. intros w1 tr1. rewrite get_node_tup. assert (c1 = c') by congruence. subst c1. now rewrite X2.
  - intros ip E w1 tr1. specialize (K ip). rewrite E in K. destruct K as (c1 & X1 & X2). rewrite !get_node_tup. assert (c1 = c') by congruence. subst c1. now rewrite X2.
Qed.
