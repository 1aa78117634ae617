(** Lemmas about requests treated by several threads (C78). *)
From Verif Require Import PyBase EsvM MsgM PropM ObjM TidM SpecWire SpecReq ServeM SpecServe DictP ObjP ReqP TidP.
Require Import ZifyBool Permutation.

Lemma vrun_app s a b : vrun s (a ++ b) = vrun (vrun s a) b.
Proof. apply fold_left_app. Qed.

(** ** A thread alone *)
Lemma vstep_at s i p : nth_error (v_pcs s) i = Some p ->
  v_obj (vstep s i) = fst (pstep (v_obj s) p) /\ v_pcs (vstep s i) = put (v_pcs s) i (snd (pstep (v_obj s) p)).
Proof. intros E. unfold vstep. rewrite E. destruct (pstep (v_obj s) p). auto. Qed.
Inductive goes : obj * spc -> obj * spc -> Prop :=
| goes_refl x : goes x x
| goes_step o p y : goes (pstep o p) y -> goes (o, p) y.
Lemma goes_trans x y z : goes x y -> goes y z -> goes x z.
Proof. induction 1; [auto|]. intros K. apply goes_step. auto. Qed.
Lemma goes_run s i p o' p' : nth_error (v_pcs s) i = Some p -> goes (v_obj s, p) (o', p') ->
  exists m, v_obj (vrun s (repeat i m)) = o' /\ nth_error (v_pcs (vrun s (repeat i m))) i = Some p'.
Proof.
  intros E G. remember (v_obj s, p) as x eqn:Ex. remember (o', p') as y eqn:Ey. revert s p E Ex. induction G as [x|o q y G IH]; intros s p E Ex.
  - exists 0%nat. cbn. rewrite Ex in Ey. inversion Ey; subst. auto.
  - inversion Ex; subst o q. destruct (vstep_at s i p E) as (A & B).
    destruct (IH Ey (vstep s i) (snd (pstep (v_obj s) p))) as (m & H).
    + rewrite B, nth_put, Nat.eqb_refl, E. reflexivity.
    + rewrite A. apply surjective_pairing.
    + exists (S m). exact H.
Qed.
Lemma goes_sets req : forall todo o sets n, match do_loop do_write o todo with
  | (o1, Ok (ss, k)) => goes (o, SSets req todo sets n) (o1, SSets req [] (sets ++ ss) (n + k))
  | (o1, Err e) => goes (o, SSets req todo sets n) (o1, SDone (Err e)) end.
Proof.
  induction todo as [|mp todo IH]; intros o sets n; cbn [do_loop].
  - rewrite app_nil_r, Z.add_0_r. apply goes_refl.
  - destruct (do_write o mp) as [o1 [[rp acc]|e]] eqn:E.
    + specialize (IH o1 (sets ++ [rp]) (n + if acc then 1 else 0)). destruct (do_loop do_write o1 todo) as [o2 [[ss k]|e]]; apply goes_step; cbn [pstep]; rewrite E;
      [rewrite <- app_assoc in IH; cbn [app] in IH; rewrite Z.add_assoc|]; exact IH.
    + apply goes_step. cbn [pstep]. rewrite E. apply goes_refl.
Qed.
Lemma goes_gets req sets : forall todo o gets n, match do_loop do_read_wr o todo with
  | (o1, Ok (gs, k)) => goes (o, SGets req todo sets gets n) (o1, SGets req [] sets (gets ++ gs) (n + k))
  | (o1, Err e) => goes (o, SGets req todo sets gets n) (o1, SDone (Err e)) end.
Proof.
  induction todo as [|mp todo IH]; intros o gets n; cbn [do_loop].
  - rewrite app_nil_r, Z.add_0_r. apply goes_refl.
  - destruct (do_read_wr o mp) as [o1 [[rp acc]|e]] eqn:E.
    + specialize (IH o1 (gets ++ [rp]) (n + if acc then 1 else 0)). destruct (do_loop do_read_wr o1 todo) as [o2 [[ss k]|e]]; apply goes_step; cbn [pstep]; rewrite E;
      [rewrite <- app_assoc in IH; cbn [app] in IH; rewrite Z.add_assoc|]; exact IH.
    + apply goes_step. cbn [pstep]. rewrite E. apply goes_refl.
Qed.
Lemma goes_props req : forall todo o ps n, match do_loop (do_plain (m_ESV req)) o todo with
  | (o1, Ok (ss, k)) => goes (o, SProps req todo ps n) (o1, SProps req [] (ps ++ ss) (n + k))
  | (o1, Err e) => goes (o, SProps req todo ps n) (o1, SDone (Err e)) end.
Proof.
  induction todo as [|mp todo IH]; intros o ps n; cbn [do_loop].
  - rewrite app_nil_r, Z.add_0_r. apply goes_refl.
  - destruct (do_plain (m_ESV req) o mp) as [o1 [[rp acc]|e]] eqn:E.
    + specialize (IH o1 (ps ++ [rp]) (n + if acc then 1 else 0)). destruct (do_loop (do_plain (m_ESV req)) o1 todo) as [o2 [[ss k]|e]]; apply goes_step; cbn [pstep]; rewrite E;
      [rewrite <- app_assoc in IH; cbn [app] in IH; rewrite Z.add_assoc|]; exact IH.
    + apply goes_step. cbn [pstep]. rewrite E. apply goes_refl.
Qed.
Lemma goes_all o req : goes (o, SBegin req) (fst (fst (obj_message_received o req)), SDone (snd (obj_message_received o req))).
Proof.
  apply goes_step. cbn [pstep]. unfold obj_message_received. destruct (is_request (m_ESV req)); cbn [negb]; [|apply goes_refl].
  destruct (o_handler o); [apply goes_refl| | |].
  all: destruct (is_write_read_request (m_ESV req)).
  all: try (pose proof (goes_sets req (m_sets req) o [] 0) as H; destruct (do_loop do_write o (m_sets req)) as [o1 [[ss k]|e]]; [|exact H];
    eapply goes_trans; [exact H|]; apply goes_step; cbn [pstep app]; rewrite Z.add_0_l; clear H;
    pose proof (goes_gets req ss (m_gets req) o1 [] k) as H; destruct (do_loop do_read_wr o1 (m_gets req)) as [o2 [[gs k2]|e]]; [|exact H];
    eapply goes_trans; [exact H|]; apply goes_step; cbn [pstep app]; unfold answer_of; destruct (response_esv (m_ESV req) _); apply goes_refl).
  all: pose proof (goes_props req (m_props req) o [] 0) as H; destruct (do_loop (do_plain (m_ESV req)) o (m_props req)) as [o1 [[ss k]|e]]; [|exact H];
    eapply goes_trans; [exact H|]; apply goes_step; cbn [pstep app]; rewrite Z.add_0_l; unfold answer_of; destruct (response_esv (m_ESV req) _); apply goes_refl.
Qed.
Lemma L_C78_sequential : forall s i req, nth_error (v_pcs s) i = Some (SBegin req) -> exists m,
  v_obj (vrun s (repeat i m)) = fst (fst (obj_message_received (v_obj s) req)) /\
  nth_error (v_pcs (vrun s (repeat i m))) i = Some (SDone (snd (obj_message_received (v_obj s) req))).
Proof. intros s i req E. apply (goes_run s i _ _ _ E). apply goes_all. Qed.

(** ** Any interleaving *)
Lemma writes_from_app reqs : forall a b past, writes_from reqs past (a ++ b) = writes_from reqs past a ++ writes_from reqs (past ++ a) b.
Proof.
  induction a as [|i a IH]; intros b past; cbn [app writes_from]; [now rewrite app_nil_r|]. rewrite IH, <- !app_assoc. reflexivity.
Qed.
Lemma writes_snoc reqs past i : writes_made reqs (past ++ [i]) = writes_made reqs past ++ write_made reqs past i.
Proof. unfold writes_made. rewrite writes_from_app. cbn [app writes_from]. now rewrite app_nil_r. Qed.
Lemma steps_snoc i j past : steps_of i (past ++ [j]) = (steps_of i past + if Nat.eqb j i then 1 else 0)%nat.
Proof.
  unfold steps_of. rewrite count_occ_app. cbn [count_occ]. destruct (Nat.eq_dec j i); destruct (Nat.eqb_spec j i); try contradiction; reflexivity.
Qed.
Lemma firstn_S {A} (l : list A) k x : nth_error l k = Some x -> firstn (S k) l = firstn k l ++ [x].
Proof. revert k; induction l as [|y l IH]; intros [|k] E; cbn in E; try discriminate; [inversion E; reflexivity|]. cbn [firstn app]. now rewrite <- IH. Qed.

Inductive seenb (s : sst) (sched : list nat) (i b : nat) : nat -> list prop -> list prop -> Prop :=
| sb_nil e : (b <= e)%nat -> seenb s sched i b e [] []
| sb_more e k mp l rs : (e <= k)%nat -> nth_error sched k = Some i -> seenb s sched i b e l rs ->
    seenb s sched i b (S k) (l ++ [mp]) (rs ++ [mkprop (p_code mp) (fst (read_answer (obj_at s sched k) mp))])
| sb_wait e e' l rs : (e <= e')%nat -> seenb s sched i b e l rs -> seenb s sched i b e' l rs.
Lemma seenb_le s sched i b e l rs : seenb s sched i b e l rs -> (b <= e)%nat.
Proof. induction 1; lia. Qed.
Lemma seenb_seen s sched i b e l rs : seenb s sched i b e l rs -> forall l2 rs2, seen s sched i e l2 rs2 -> seen s sched i b (l ++ l2) (rs ++ rs2).
Proof.
  induction 1 as [e L|e k mp l rs L E S IH|e e' l rs L S IH]; intros l2 rs2 H.
  - cbn [app]. inversion H; subst; [constructor|]. econstructor; [|eassumption|eassumption]. lia.
  - rewrite <- !app_assoc. cbn [app]. apply IH. now apply seen_next.
  - apply IH. inversion H; subst; [constructor|]. econstructor; [|eassumption|eassumption]. lia.
Qed.

Lemma answers_app f a b : answers f (a ++ b) = answers f a ++ answers f b.
Proof. apply map_app. Qed.
Lemma count_snoc f l mp : count f (l ++ [mp]) = count f l + if snd (f mp) then 1 else 0.
Proof. unfold count, zlen. rewrite filter_app, app_length. cbn [filter]. destruct (snd (f mp)); cbn; lia. Qed.

Definition right (o : obj) (s : sst) (sched : list nat) (i : nat) (req : msg) (r : res (option msg)) : Prop :=
  match snd (obj_message_received o req) with
  | Ok (Some a) => exists a' b, r = Ok (Some a') /\ rest_part req a' = rest_part req a /\
      (length (asked_writes req) < steps_of i (firstn b sched))%nat /\
      seen s sched i b (asked_reads req) (read_part req a')
  | x => r = x
  end.
Definition thread_inv (o : obj) (s : sst) (sched : list nat) (i : nat) (req : msg) (k : nat) (p : spc) : Prop :=
  let c := steps_of i (firstn k sched) in
  match p with
  | SBegin r => r = req /\ c = 0%nat
  | SSets r todo sets n => r = req /\ m_ESV req = 0x6E /\ exists done, m_sets req = done ++ todo /\
      sets = answers (write_answer o) done /\ n = count (write_answer o) done /\ c = S (length done)
  | SGets r todo sets gets n => r = req /\ m_ESV req = 0x6E /\ sets = answers (write_answer o) (m_sets req) /\
      exists done b, m_gets req = done ++ todo /\ (length (m_sets req) < steps_of i (firstn b sched))%nat /\
        (length (m_sets req) < c)%nat /\
        seenb s sched i b k done gets /\ n = count (write_answer o) (m_sets req) + count (read_answer o) done /\
        forallb (fun mp => has_property (p_code mp) o) done = true
  | SProps r todo ps n => r = req /\ m_ESV req <> 0x6E /\ is_request (m_ESV req) = true /\
      exists done, m_props req = done ++ todo /\ c = S (length done) /\
        if m_ESV req =? 0x62 then
          n = count (read_answer o) done /\ exists b, (0 < steps_of i (firstn b sched))%nat /\ seenb s sched i b k done ps
        else if (m_ESV req =? 0x60) || (m_ESV req =? 0x61) then
          ps = answers (write_answer o) done /\ n = count (write_answer o) done
        else ps = answers (fun _ => ([], false)) done /\ n = 0
  | SDone r => (length (asked_writes req) < c)%nat /\ right o s sched i req r
  end.
Lemma requests e : is_request e = true -> e = 0x60 \/ e = 0x61 \/ e = 0x62 \/ e = 0x63 \/ e = 0x6E \/ e = 0x74.
Proof.
  unfold is_request, WRITE_REQUEST, WRITE_REQUEST_RESPONSE_REQUIRED, READ_REQUEST, NOTIFICATION_REQUEST, WRITE_READ_REQUEST, NOTIFICATION_RESPONSE_REQUIRED.
  repeat match goal with |- context [e =? ?x] => destruct (Z.eqb_spec e x); [lia|] end. discriminate.
Qed.

Lemma forallb_same {A} (f g : A -> bool) l : (forall x, f x = g x) -> forallb f l = forallb g l.
Proof. intros H. induction l as [|x l IH]; [reflexivity|]. cbn [forallb]. now rewrite H, IH. Qed.

Section Threads.
Context (o : obj) (reqs : list msg) (sched : list nat) (B : builtin (o_handler o)) (W : wf_obj o).
Let s := serving o reqs.
Let past k := firstn k sched.
Definition whole (k : nat) : Prop :=
  written o (writes_made reqs (past k)) (obj_at s sched k) /\
  length (v_pcs (vrun s (past k))) = length reqs /\
  forall i req p, nth_error reqs i = Some req -> thread_at s sched i k = Some p -> thread_inv o s sched i req k p.

Lemma done_plain i req ps n k : m_ESV req <> 0x6E -> is_request (m_ESV req) = true -> (0 < steps_of i (past k))%nat ->
  (if m_ESV req =? 0x62 then
     n = count (read_answer o) (m_props req) /\ exists b, (0 < steps_of i (firstn b sched))%nat /\ seenb s sched i b k (m_props req) ps
   else if (m_ESV req =? 0x60) || (m_ESV req =? 0x61) then
     ps = answers (write_answer o) (m_props req) /\ n = count (write_answer o) (m_props req) /\ steps_of i (past k) = S (length (m_props req))
   else ps = answers (fun _ => ([], false)) (m_props req) /\ n = 0) ->
  right o s sched i req (answer_of req ps [] [] n).
Proof.
  intros N6 RQ C H. unfold right. rewrite (received_plain o req (builtin_not_none o B) RQ) by lia.
  unfold answer_of, do_plain. destruct (requests _ RQ) as [E|[E|[E|[E|[E|E]]]]]; [| | | |lia|]; rewrite E in *;
    unfold is_read_request, is_write_request, READ_REQUEST, WRITE_REQUEST, WRITE_READ_REQUEST, WRITE_REQUEST_RESPONSE_REQUIRED; cbn [Z.eqb Pos.eqb orb] in *.
  - destruct H as (-> & -> & H). destruct (loop_write (m_props req) o B W) as (o' & -> & _). cbn [snd]. unfold response_esv, WRITE_REQUEST; cbn [Z.eqb Pos.eqb].
    destruct (_ =? _); cbn [option_map]; [reflexivity|]. eexists _, k. split; [reflexivity|]. unfold rest_part, asked_writes, asked_reads, read_part. rewrite E. cbn [Z.eqb Pos.eqb orb].
    split; [reflexivity|]. split; [unfold past in H; lia|constructor].
  - destruct H as (-> & -> & H). destruct (loop_write (m_props req) o B W) as (o' & -> & _). cbn [snd]. unfold response_esv, WRITE_REQUEST, WRITE_REQUEST_RESPONSE_REQUIRED; cbn [Z.eqb Pos.eqb].
    destruct (_ =? _); cbn [option_map]; (eexists _, k; split; [reflexivity|]; unfold rest_part, asked_writes, asked_reads, read_part; rewrite E; cbn [Z.eqb Pos.eqb orb];
    split; [reflexivity|]; split; [unfold past in H; lia|constructor]).
  - destruct H as (-> & b & L & H). rewrite (loop_read o _ B W). cbn [snd]. unfold response_esv, WRITE_REQUEST, WRITE_REQUEST_RESPONSE_REQUIRED, READ_REQUEST; cbn [Z.eqb Pos.eqb].
    pose proof (seenb_seen _ _ _ _ _ _ _ H [] [] (seen_nil _ _ _ _)) as H'. rewrite !app_nil_r in H'.
    destruct (_ =? _); cbn [option_map]; (eexists _, b; split; [reflexivity|]; unfold rest_part, asked_writes, asked_reads, read_part; rewrite E; cbn [Z.eqb Pos.eqb orb];
    split; [reflexivity|]; split; [cbn; lia|exact H']).
  - destruct H as (-> & ->). rewrite loop_skip. cbn [snd]. generalize (0 =? OPC req + OPCSet req + OPCGet req); intros q0. unfold response_esv, WRITE_REQUEST, WRITE_REQUEST_RESPONSE_REQUIRED, READ_REQUEST, WRITE_READ_REQUEST, NOTIFICATION_REQUEST; cbn [Z.eqb Pos.eqb].
    destruct q0; cbn [option_map]; (eexists _, k; split; [reflexivity|]; unfold rest_part, asked_writes, asked_reads, read_part; rewrite E; cbn [Z.eqb Pos.eqb orb];
    split; [reflexivity|]; split; [cbn; exact C|constructor]).
  - destruct H as (-> & ->). rewrite loop_skip. cbn [snd]. generalize (0 =? OPC req + OPCSet req + OPCGet req); intros q0. unfold response_esv, WRITE_REQUEST, WRITE_REQUEST_RESPONSE_REQUIRED, READ_REQUEST, WRITE_READ_REQUEST, NOTIFICATION_REQUEST, NOTIFICATION_RESPONSE_REQUIRED; cbn [Z.eqb Pos.eqb].
    destruct q0; cbn [option_map]; [|reflexivity]. eexists _, k; split; [reflexivity|]; unfold rest_part, asked_writes, asked_reads, read_part; rewrite E; cbn [Z.eqb Pos.eqb orb];
    split; [reflexivity|]; split; [cbn; exact C|constructor].
Qed.
Lemma done_wr i req gs n b k : m_ESV req = 0x6E -> (length (m_sets req) < steps_of i (firstn b sched))%nat -> seenb s sched i b k (m_gets req) gs ->
  n = count (write_answer o) (m_sets req) + count (read_answer o) (m_gets req) -> forallb (fun mp => has_property (p_code mp) o) (m_gets req) = true ->
  right o s sched i req (answer_of req [] (answers (write_answer o) (m_sets req)) gs n).
Proof.
  intros E L H -> A. unfold right. rewrite (received_wr o req (builtin_not_none o B) E). destruct (loop_write (m_sets req) o B W) as (o' & -> & Wr).
  assert (B' : builtin (o_handler o')) by (rewrite (written_handler _ _ _ Wr); exact B).
  rewrite (loop_read_wr o' _ B' (written_wf _ _ _ Wr W)).
  rewrite (forallb_same _ (fun mp => has_property (p_code mp) o)), A by (intros; apply (written_has _ _ _ _ Wr)). cbn [snd].
  rewrite (count_ext (read_answer o') (read_answer o)) by (intros; apply (written_read_snd _ _ _ _ Wr)).
  pose proof (seenb_seen _ _ _ _ _ _ _ H [] [] (seen_nil _ _ _ _)) as H'. rewrite !app_nil_r in H'.
  unfold answer_of, response_esv, WRITE_REQUEST, WRITE_REQUEST_RESPONSE_REQUIRED, READ_REQUEST, WRITE_READ_REQUEST. rewrite E. cbn [Z.eqb Pos.eqb].
  exists (resp_of req (if count (write_answer o) (m_sets req) + count (read_answer o) (m_gets req) =? OPC req + OPCSet req + OPCGet req then 0x7E else 0x5E) [] (answers (write_answer o) (m_sets req)) gs), b.
  split; [destruct (_ =? _); reflexivity|]. unfold rest_part, asked_writes, asked_reads, read_part. rewrite E. cbn [Z.eqb Pos.eqb]. split; [reflexivity|]. split; [exact L|exact H'].
Qed.
Lemma inv_wait i j req k p : nth_error sched k = Some j -> j <> i -> thread_inv o s sched i req k p -> thread_inv o s sched i req (S k) p.
Proof.
  intros E N. assert (Q : steps_of i (firstn (S k) sched) = steps_of i (firstn k sched)).
  { rewrite (firstn_S _ _ _ E), steps_snoc. destruct (Nat.eqb_spec j i); [contradiction|lia]. }
  unfold thread_inv. rewrite Q. destruct p as [r|r todo sets n|r todo sets gets n|r todo ps n|r]; auto.
  - intros (-> & E6 & -> & dn & b & H1 & H2 & H3 & H4 & H5). split; [reflexivity|]. split; [exact E6|]. split; [reflexivity|]. exists dn, b. split; [exact H1|]. split; [exact H2|]. split; [exact H3|]. split; [|exact H5]. now apply (sb_wait _ _ _ _ k); [lia|].
  - intros (-> & E6 & RQ & dn & H1 & H2 & H3). split; [reflexivity|]. split; [exact E6|]. split; [exact RQ|]. exists dn. split; [exact H1|]. split; [exact H2|]. destruct (m_ESV req =? 0x62); [|exact H3].
    destruct H3 as (-> & b & L & H). split; [reflexivity|]. exists b. split; [exact L|]. now apply (sb_wait _ _ _ _ k); [lia|].
Qed.
Lemma step_thread j req k p l : nth_error sched k = Some j -> nth_error reqs j = Some req ->
  thread_inv o s sched j req k p -> written o l (obj_at s sched k) ->
  thread_inv o s sched j req (S k) (snd (pstep (obj_at s sched k) p)) /\
  written (obj_at s sched k) (write_made reqs (past k) j) (fst (pstep (obj_at s sched k) p)).
Proof.
  intros E R I Wr. set (x := obj_at s sched k) in *.
  assert (Bx : builtin (o_handler x)) by (rewrite (written_handler _ _ _ Wr); exact B).
  assert (Wx : wf_obj x) by exact (written_wf _ _ _ Wr W).
  assert (Q : steps_of j (firstn (S k) sched) = S (steps_of j (firstn k sched))).
  { rewrite (firstn_S _ _ _ E), steps_snoc, Nat.eqb_refl. lia. }
  assert (NW : forall c, steps_of j (past k) = c -> (length (asked_writes req) < c)%nat -> write_made reqs (past k) j = []).
  { intros c Ec L. unfold write_made. rewrite R, Ec. destruct c as [|c]; [lia|]. rewrite (proj2 (nth_error_None _ _)) by lia. reflexivity. }
  assert (N0 : steps_of j (past k) = 0%nat -> write_made reqs (past k) j = []).
  { intros Ec. unfold write_made. now rewrite R, Ec. }
  unfold thread_inv in *. rewrite Q. fold (past k) in *. destruct p as [r|r todo sets n|r todo sets gets n|r todo ps n|r].
  - destruct I as (-> & C). rewrite C, (N0 C). cbn [pstep]. destruct (is_request (m_ESV req)) eqn:RQ; cbn [negb].
    + destruct (o_handler x) eqn:EH; [exfalso; destruct Bx; discriminate| | |].
      all: unfold is_write_read_request, WRITE_READ_REQUEST; destruct (Z.eqb_spec (m_ESV req) 0x6E) as [E6|N6]; cbn [fst snd]; (split; [|apply written_refl]).
      all: try (split; [reflexivity|]; split; [exact E6|]; exists []; repeat split; fail).
      all: split; [reflexivity|]; split; [exact N6|]; split; [first [exact RQ|reflexivity]|]; exists []; split; [reflexivity|]; split; [reflexivity|];
        destruct (m_ESV req =? 0x62); [split; [reflexivity|]; exists (S k); split; [rewrite Q, C; lia|constructor; lia]|destruct (_ || _); split; reflexivity].
    + cbn [fst snd]. split; [|apply written_refl]. split.
      * unfold asked_writes. destruct (Z.eqb_spec (m_ESV req) 0x6E) as [X|_]; [rewrite X in RQ; discriminate|]. destruct (Z.eqb_spec (m_ESV req) 0x60) as [X|_]; [rewrite X in RQ; discriminate|].
        destruct (Z.eqb_spec (m_ESV req) 0x61) as [X|_]; [rewrite X in RQ; discriminate|]. cbn. lia.
      * unfold right, obj_message_received. rewrite RQ. reflexivity.
  - destruct I as (-> & E6 & dn & M & -> & -> & C). destruct todo as [|mp todo]; cbn [pstep].
    + rewrite app_nil_r in M. subst dn. rewrite (NW _ C) by (unfold asked_writes; rewrite E6; cbn; lia). cbn [fst snd]. split; [|apply written_refl].
      split; [reflexivity|]. split; [exact E6|]. split; [reflexivity|]. exists [], (S k). split; [reflexivity|]. split; [rewrite Q; lia|]. split; [lia|]. split; [constructor; lia|]. split; [unfold count, zlen; cbn; lia|reflexivity].
    + rewrite (do_write_builtin x mp Bx Wx). cbn [fst snd]. rewrite (written_answer _ _ _ mp Wr). split.
      * split; [reflexivity|]. split; [exact E6|]. exists (dn ++ [mp]). rewrite <- app_assoc, answers_app, count_snoc, app_length. cbn [length]. repeat split; auto; lia.
      * unfold write_made. rewrite R, C. unfold asked_writes. rewrite E6. cbn [Z.eqb Pos.eqb]. rewrite M, nth_error_app2, Nat.sub_diag by lia. cbn [nth_error]. apply written_one.
  - destruct I as (-> & E6 & -> & dn & b & M & L & C & S & -> & A). rewrite (NW _ eq_refl) by (unfold asked_writes; rewrite E6; cbn; lia). destruct todo as [|mp todo]; cbn [pstep].
    + rewrite app_nil_r in M. subst dn. cbn [fst snd]. split; [|apply written_refl]. split; [unfold asked_writes; rewrite E6; cbn; lia|]. now apply (done_wr j req gets _ b k).
    + rewrite (do_read_wr_builtin x mp Bx Wx). destruct (has_property (p_code mp) x) eqn:HP; cbn [fst snd]; (split; [|apply written_refl]).
      * split; [reflexivity|]. split; [exact E6|]. split; [reflexivity|]. exists (dn ++ [mp]), b. rewrite <- app_assoc. split; [exact M|]. split; [exact L|]. split; [lia|]. split; [now apply (sb_more _ _ _ _ k)|].
        split; [rewrite count_snoc, (written_read_snd _ _ _ _ Wr); lia|]. rewrite forallb_app, A. cbn [forallb]. rewrite <- (written_has _ _ _ _ Wr), HP. reflexivity.
      * split; [unfold asked_writes; rewrite E6; cbn; lia|]. unfold right. rewrite (received_wr o req (builtin_not_none o B) E6). destruct (loop_write (m_sets req) o B W) as (o' & -> & Wr').
        assert (B' : builtin (o_handler o')) by (rewrite (written_handler _ _ _ Wr'); exact B).
        rewrite (loop_read_wr o' _ B' (written_wf _ _ _ Wr' W)).
        rewrite (forallb_same _ (fun mp => has_property (p_code mp) o)) by (intros; apply (written_has _ _ _ _ Wr')). rewrite M, forallb_app. cbn [forallb]. rewrite <- (written_has _ _ _ (p_code mp) Wr), HP, andb_false_r. reflexivity.
  - destruct I as (-> & N6 & RQ & dn & M & C & H). destruct todo as [|mp todo]; cbn [pstep].
    + rewrite app_nil_r in M. subst dn. cbn [fst snd].
      assert (A : (length (asked_writes req) < steps_of j (past k))%nat).
      { rewrite C. unfold asked_writes. destruct (m_ESV req =? 0x6E) eqn:E6; [lia|]. destruct (_ || _); cbn; lia. }
      rewrite (NW _ eq_refl A). split; [|apply written_refl]. split; [lia|]. apply (done_plain j req ps n k N6 RQ); [lia|].
      destruct (m_ESV req =? 0x62); [exact H|]. destruct (_ || _); [|exact H]. destruct H as (H1 & H2). auto.
    + unfold do_plain. destruct (requests _ RQ) as [X|[X|[X|[X|[X|X]]]]]; [| | | |lia|]; rewrite X in *;
        unfold is_read_request, is_write_request, READ_REQUEST, WRITE_REQUEST, WRITE_READ_REQUEST, WRITE_REQUEST_RESPONSE_REQUIRED; cbn [Z.eqb Pos.eqb orb] in *.
      1-2: destruct H as (-> & ->); rewrite (do_write_builtin x mp Bx Wx); cbn [fst snd]; rewrite (written_answer _ _ _ mp Wr); split;
        [split; [reflexivity|]; split; [exact N6|]; split; [exact RQ|]; exists (dn ++ [mp]); rewrite <- app_assoc, answers_app, count_snoc, app_length; cbn [length]; repeat split; auto; lia
        |unfold write_made; rewrite R, C; unfold asked_writes; rewrite X; cbn [Z.eqb Pos.eqb orb]; rewrite M, nth_error_app2, Nat.sub_diag by lia; cbn [nth_error]; apply written_one].
      1: destruct H as (-> & b & L & S); rewrite (do_read_builtin x mp Bx Wx); cbn [fst snd]; rewrite (NW _ eq_refl) by (unfold asked_writes; rewrite X; cbn; lia); split; [|apply written_refl];
        split; [reflexivity|]; split; [exact N6|]; split; [exact RQ|]; exists (dn ++ [mp]); rewrite <- app_assoc, app_length; cbn [length]; split; [exact M|]; split; [lia|]; split;
        [rewrite count_snoc, (written_read_snd _ _ _ _ Wr); reflexivity|]; exists b; split; [exact L|]; now apply (sb_more _ _ _ _ k).
      1-2: destruct H as (-> & ->); cbn [do_skip fst snd]; rewrite (NW _ eq_refl) by (unfold asked_writes; rewrite X; cbn; lia); split; [|apply written_refl];
        split; [reflexivity|]; split; [exact N6|]; split; [exact RQ|]; exists (dn ++ [mp]); rewrite <- app_assoc, answers_app, app_length; cbn [length]; split; [exact M|]; split; [lia|]; split; reflexivity.
  - destruct I as (C & H). rewrite (NW _ eq_refl C). cbn [pstep fst snd]. split; [|apply written_refl]. split; [lia|exact H].
Qed.
Lemma run_S k j : nth_error sched k = Some j -> vrun s (past (S k)) = vstep (vrun s (past k)) j.
Proof. intros E. unfold past. rewrite (firstn_S _ _ _ E), vrun_app. reflexivity. Qed.
Lemma whole_step k j : nth_error sched k = Some j -> whole k -> whole (S k).
Proof.
  intros E (Wr & L & T). pose proof (run_S k j E) as RS.
  destruct (nth_error (v_pcs (vrun s (past k))) j) as [p|] eqn:P.
  - destruct (vstep_at _ _ _ P) as (A1 & A2).
    destruct (nth_error reqs j) as [req|] eqn:R; [|apply nth_error_None in R; assert (nth_error (v_pcs (vrun s (past k))) j = None) by (apply nth_error_None; lia); congruence].
    destruct (step_thread j req k p _ E R (T j req p R P) Wr) as (S1 & S2). unfold whole. unfold obj_at, thread_at. fold (past (S k)). rewrite RS, A1, A2, length_put. split; [|split; [exact L|]].
    + unfold past at 1. rewrite (firstn_S _ _ _ E), writes_snoc. exact (written_trans _ _ _ _ _ Wr S2).
    + intros i req' p' R' P'. rewrite nth_put in P'. destruct (Nat.eqb_spec i j) as [->|N].
      * rewrite P in P'. assert (p' = snd (pstep (obj_at s sched k) p)) by (unfold obj_at, past in *; congruence). assert (req' = req) by congruence. subst. exact S1.
      * apply (inv_wait i j); [exact E|congruence|]. now apply T.
  - assert (Z : vstep (vrun s (past k)) j = vrun s (past k)) by (unfold vstep; now rewrite P).
    assert (R : nth_error reqs j = None) by (apply nth_error_None in P; apply nth_error_None; lia).
    unfold whole. unfold obj_at, thread_at. fold (past (S k)). rewrite RS, Z. split; [|split; [exact L|]].
    + unfold past at 1. rewrite (firstn_S _ _ _ E), writes_snoc. unfold write_made. rewrite R, app_nil_r. exact Wr.
    + intros i req' p' R' P'. apply (inv_wait i j); [exact E|congruence|]. now apply T.
Qed.
Lemma whole_0 : whole 0.
Proof.
  unfold whole, past, obj_at, thread_at. cbn [firstn vrun fold_left writes_made writes_from v_obj v_pcs s serving]. unfold s, serving. cbn [v_obj v_pcs]. split; [apply written_refl|]. split; [apply map_length|].
  intros i req p R P. rewrite nth_error_map, R in P. assert (p = SBegin req) by (cbn in P; congruence). subst. split; reflexivity.
Qed.
Lemma whole_all k : (k <= length sched)%nat -> whole k.
Proof.
  induction k as [|k IH]; intros L; [exact whole_0|]. destruct (nth_error sched k) as [j|] eqn:E; [|apply nth_error_None in E; lia].
  apply (whole_step k j E), IH. lia.
Qed.
End Threads.
Lemma L_C78_object : forall o reqs sched, builtin (o_handler o) -> wf_obj o ->
  written o (writes_made reqs sched) (v_obj (vrun (serving o reqs) sched)).
Proof.
  intros o reqs sched B W. destruct (whole_all o reqs sched B W (length sched) (le_n _)) as (H & _). unfold obj_at in H. rewrite firstn_all in H. exact H.
Qed.
Lemma L_C78_answer : forall o reqs sched i req r, builtin (o_handler o) -> wf_obj o -> nth_error reqs i = Some req ->
  let s := serving o reqs in
  nth_error (v_pcs (vrun s sched)) i = Some (SDone r) ->
  match snd (obj_message_received o req) with
  | Ok (Some a) => exists a' b, r = Ok (Some a') /\ rest_part req a' = rest_part req a /\
      (length (asked_writes req) < steps_of i (firstn b sched))%nat /\
      seen s sched i b (asked_reads req) (read_part req a')
  | x => r = x
  end.
Proof.
  intros o reqs sched i req r B W R s D. destruct (whole_all o reqs sched B W (length sched) (le_n _)) as (_ & _ & H). specialize (H i req (SDone r) R). unfold thread_at in H. rewrite firstn_all in H. exact (proj2 (H D)).
Qed.

Definition pot (p : spc) : nat :=
  match p with
  | SBegin m => 3 + length (m_props m) + length (m_sets m) + length (m_gets m)
  | SSets m todo _ _ => 2 + length todo + length (m_gets m)
  | SGets _ todo _ _ _ => 1 + length todo
  | SProps _ todo _ _ => 1 + length todo
  | SDone _ => 0
  end.
Lemma pstep_pot o p : (pot (snd (pstep o p)) <= pot p - 1)%nat.
Proof.
  destruct p as [r|r todo sets n|r todo sets gets n|r todo ps n|r]; cbn [pstep]; [|destruct todo as [|mp todo]|destruct todo as [|mp todo]|destruct todo as [|mp todo]|].
  all: try (cbn; lia).
  - destruct (negb _); [cbn; lia|]. destruct (o_handler o); try (cbn; lia). all: destruct (is_write_read_request _); cbn; lia.
  - destruct (do_write o mp) as [o1 [[rp acc]|e]]; cbn; lia.
  - destruct (do_read_wr o mp) as [o1 [[rp acc]|e]]; cbn; lia.
  - destruct (do_plain _ o mp) as [o1 [[rp acc]|e]]; cbn; lia.
Qed.
Lemma run_pot i : forall sched s p, nth_error (v_pcs s) i = Some p -> exists p', nth_error (v_pcs (vrun s sched)) i = Some p' /\ (pot p' <= pot p - steps_of i sched)%nat.
Proof.
  induction sched as [|j sched IH]; intros s p E; [exists p; cbn; split; [exact E|lia]|].
  cbn [vrun fold_left]. fold (vrun (vstep s j) sched). unfold steps_of. cbn [count_occ]. fold (steps_of i sched).
  destruct (nth_error (v_pcs s) j) as [q|] eqn:Q.
  - destruct (vstep_at s j q Q) as (_ & A). destruct (Nat.eq_dec j i) as [->|N].
    + assert (q = p) by congruence. subst q. destruct (IH (vstep s i) (snd (pstep (v_obj s) p))) as (p' & H1 & H2); [rewrite A, nth_put, Nat.eqb_refl, E; reflexivity|].
      exists p'. split; [exact H1|]. pose proof (pstep_pot (v_obj s) p). unfold steps_of in *. lia.
    + apply IH. rewrite A, nth_put. destruct (Nat.eqb_spec i j); [congruence|exact E].
  - destruct (Nat.eq_dec j i) as [->|N]; [congruence|]. apply IH. unfold vstep. now rewrite Q.
Qed.
Lemma L_C78_ends : forall o reqs sched i req, nth_error reqs i = Some req ->
  (3 + length (m_props req) + length (m_sets req) + length (m_gets req) <= steps_of i sched)%nat ->
  exists r, nth_error (v_pcs (vrun (serving o reqs) sched)) i = Some (SDone r).
Proof.
  intros o reqs sched i req R L. destruct (run_pot i sched (serving o reqs) (SBegin req)) as (p & E & H).
  - unfold serving. cbn [v_pcs]. rewrite nth_error_map, R. reflexivity.
  - cbn [pot] in H. destruct p; cbn [pot] in H; try lia. exists r. exact E.
Qed.

(** ** Small requests *)
Lemma pick_snoc reqs order i req : nth_error reqs i = Some req -> pick reqs (order ++ [i]) = pick reqs order ++ [req].
Proof. intros E. unfold pick. rewrite flat_map_app. cbn [flat_map]. now rewrite E. Qed.
Lemma outs_snoc o l m : obj_outs o (l ++ [m]) = obj_outs o l ++ [snd (obj_message_received (obj_run o l) m)].
Proof. revert o; induction l as [|x l IH]; intros o; cbn [app obj_outs]; [reflexivity|]. now rewrite IH. Qed.
Lemma orun_snoc o l m : obj_run o (l ++ [m]) = fst (fst (obj_message_received (obj_run o l) m)).
Proof. unfold obj_run. rewrite fold_left_app. reflexivity. Qed.

Definition tends (p : spc) (a : res (option msg)) : Prop :=
  p = SDone a \/ exists req ps n, p = SProps req [] ps n /\ answer_of req ps [] [] n = a.
Lemma tends_step x p a : tends p a -> fst (pstep x p) = x /\ tends (snd (pstep x p)) a.
Proof. intros [->|(req & ps & n & -> & E)]; cbn [pstep fst snd]; split; auto; left; [reflexivity|]. now rewrite E. Qed.

(** The first steps of a small request. *)
Definition pending (req : msg) (p : spc) : Prop :=
  p = SBegin req \/ exists mp, m_props req = [mp] /\ is_request (m_ESV req) = true /\ p = SProps req [mp] [] 0.
Lemma pending_step x req p : o_handler x <> HNone -> small req -> pending req p ->
  (p = SBegin req /\ fst (pstep x p) = x /\ pending req (snd (pstep x p)) /\ snd (pstep x p) <> SBegin req) \/
  (fst (pstep x p) = fst (fst (obj_message_received x req)) /\ tends (snd (pstep x p)) (snd (obj_message_received x req))).
Proof.
  intros H (N6 & L) [->|(mp & M & RQ & ->)].
  - cbn [pstep]. destruct (is_request (m_ESV req)) eqn:RQ; cbn [negb].
    + destruct (m_props req) as [|mp [|mq r]] eqn:M; [| |cbn in L; lia].
      * right. rewrite (received_plain x req H RQ) by lia. rewrite M. cbn [do_loop fst snd]. destruct (o_handler x); [congruence| | |].
        all: unfold is_write_read_request, WRITE_READ_REQUEST; rewrite (proj2 (Z.eqb_neq _ _) N6); cbn [fst snd]; split; [reflexivity|]; right; eexists _, _, _; (split; [reflexivity|]);
          unfold answer_of; destruct (response_esv (m_ESV req) _); reflexivity.
      * left. split; [reflexivity|]. destruct (o_handler x); [congruence| | |].
        all: unfold is_write_read_request, WRITE_READ_REQUEST; rewrite (proj2 (Z.eqb_neq _ _) N6); cbn [fst snd]; split; [reflexivity|]; (split; [|discriminate]); right; exists mp; auto.
    + right. unfold obj_message_received. rewrite RQ. cbn [negb fst snd]. split; [reflexivity|]. now left.
  - right. rewrite (received_plain x req H RQ) by lia. rewrite M. cbn [do_loop pstep]. destruct (do_plain (m_ESV req) x mp) as [o1 [[rp acc]|e]]; cbn [fst snd app].
    + split; [reflexivity|]. right. eexists _, _, _. split; [reflexivity|]. unfold answer_of. rewrite Z.add_0_l, Z.add_0_r. destruct (response_esv (m_ESV req) _); reflexivity.
    + split; [reflexivity|]. now left.
Qed.
Section Small.
Context (o : obj) (reqs : list msg) (sched : list nat) (B : builtin (o_handler o)) (W : wf_obj o) (SM : Forall small reqs).
Let s := serving o reqs.
Definition lin (k : nat) (order : list nat) : Prop :=
  NoDup order /\ (forall i, In i order -> (i < length reqs)%nat) /\
  obj_at s sched k = obj_run o (pick reqs order) /\
  Forall2 (fun i a => exists p, thread_at s sched i k = Some p /\ tends p a) order (obj_outs o (pick reqs order)) /\
  (forall i req, nth_error reqs i = Some req -> ~ In i order -> exists p, thread_at s sched i k = Some p /\ pending req p) /\
  (forall k', (k' <= k)%nat -> exists o1 o2, order = o1 ++ o2 /\
     (forall a r, thread_at s sched a k' = Some (SDone r) -> In a o1) /\
     (forall b m, thread_at s sched b k' = Some (SBegin m) -> ~ In b o1)).

Lemma Forall2_nth_l {A C} (R : A -> C -> Prop) l l' : Forall2 R l l' -> forall a, In a l -> exists c, R a c.
Proof. induction 1; intros a H1; [destruct H1|]. destruct H1 as [->|H1]; [now exists y|auto]. Qed.
Lemma pcs_len k : (k <= length sched)%nat -> length (v_pcs (vrun s (firstn k sched))) = length reqs.
Proof. intros L. now destruct (whole_all o reqs sched B W k L) as (_ & H & _). Qed.
Lemma hist_now k order : (k <= length sched)%nat -> (forall i, In i order -> (i < length reqs)%nat) ->
  (forall i, In i order -> exists p a, thread_at s sched i k = Some p /\ tends p a) ->
  (forall i req, nth_error reqs i = Some req -> ~ In i order -> exists p, thread_at s sched i k = Some p /\ pending req p) ->
  (forall a r, thread_at s sched a k = Some (SDone r) -> In a order) /\
  (forall b m, thread_at s sched b k = Some (SBegin m) -> ~ In b order).
Proof.
  intros LK LO T P. split.
  - intros a r E. destruct (in_dec Nat.eq_dec a order) as [I|N]; [exact I|]. exfalso. assert (La : (a < length reqs)%nat) by (rewrite <- (pcs_len k LK); apply nth_error_Some; unfold thread_at in E; congruence).
    destruct (nth_error reqs a) as [req|] eqn:R; [|apply nth_error_None in R; lia]. destruct (P a req R N) as (p & E' & [->|(mp & _ & _ & ->)]); congruence.
  - intros b m E I. destruct (T b I) as (p & a & E' & [->|(q & ps & n & -> & _)]); congruence.
Qed.

Lemma lin_step k j order : nth_error sched k = Some j -> lin k order -> exists order', lin (S k) order'.
Proof.
  intros E (ND & LO & OB & F2 & PE & HI).
  assert (LK : (S k <= length sched)%nat) by (apply nth_error_Some; congruence).
  pose proof (run_S o reqs sched k j E) as RS. fold s in RS.
  destruct (nth_error reqs j) as [req|] eqn:R.
  2:{ assert (Z : vrun s (firstn (S k) sched) = vrun s (firstn k sched)).
      { rewrite RS. unfold vstep. rewrite (proj2 (nth_error_None _ _)); [reflexivity|]. rewrite pcs_len by lia. now apply nth_error_None. }
      exists order. unfold lin. unfold obj_at, thread_at in *. rewrite Z. repeat (split; [assumption|]).
      intros k' L. destruct (Nat.eq_dec k' (S k)) as [->|]; [|apply HI; lia]. rewrite Z. apply HI. lia. }
  assert (SJ : small req) by (rewrite Forall_forall in SM; apply SM; now apply (nth_error_In _ j)).
  set (x := obj_at s sched k) in *.
  assert (HX : o_handler x <> HNone).
  { destruct (whole_all o reqs sched B W k) as (Wr & _); [lia|]. fold s in Wr. unfold x. rewrite (written_handler _ _ _ Wr). now apply builtin_not_none. }
  assert (OT : forall p, thread_at s sched j k = Some p -> obj_at s sched (S k) = fst (pstep x p) /\
            (forall i, thread_at s sched i (S k) = if Nat.eqb i j then Some (snd (pstep x p)) else thread_at s sched i k)).
  { intros p P. unfold obj_at, thread_at in *. rewrite RS. destruct (vstep_at _ _ _ P) as (A1 & A2). split; [exact A1|]. intros i. rewrite A2, nth_put, P. destruct (Nat.eqb_spec i j) as [->|]; reflexivity. }
  assert (KEEP : forall p p', thread_at s sched j k = Some p -> snd (pstep x p) = p' -> (forall a, tends p a -> tends p' a) ->
            Forall2 (fun i a => exists p, thread_at s sched i (S k) = Some p /\ tends p a) order (obj_outs o (pick reqs order))).
  { intros p p' P P' T. destruct (OT p P) as (_ & A2). clear -F2 A2 P P' T. induction F2 as [|i a l l' (q & Q1 & Q2) F IH]; constructor; [|exact IH].
    rewrite A2. destruct (Nat.eqb_spec i j) as [->|]; [|exists q; auto]. exists (snd (pstep x p)). split; [reflexivity|]. rewrite P'. apply T. assert (q = p) by congruence. now subst. }
  assert (DONE : forall order', NoDup order' -> (forall i, In i order' -> (i < length reqs)%nat) -> obj_at s sched (S k) = obj_run o (pick reqs order') ->
     Forall2 (fun i a => exists p, thread_at s sched i (S k) = Some p /\ tends p a) order' (obj_outs o (pick reqs order')) ->
     (forall i req, nth_error reqs i = Some req -> ~ In i order' -> exists p, thread_at s sched i (S k) = Some p /\ pending req p) ->
     (exists more, order' = order ++ more) -> lin (S k) order').
  { intros order' H1 H2 H3 H4 H5 (more & H6). unfold lin. repeat (split; [assumption|]). intros k' L. destruct (Nat.eq_dec k' (S k)) as [->|N].
    - exists order', []. split; [now rewrite app_nil_r|]. apply hist_now; [exact LK|exact H2| |exact H5].
      intros i I. destruct (Forall2_nth_l _ _ _ H4 i I) as (a & p & T). exists p, a. exact T.
    - destruct (HI k') as (o1 & o2 & Eo & T1 & T2); [lia|]. exists o1, (o2 ++ more). split; [|split; [exact T1|exact T2]]. now rewrite H6, Eo, app_assoc. }
  destruct (in_dec Nat.eq_dec j order) as [I|N].
  - destruct (Forall2_nth_l _ _ _ F2 j I) as (a & p & P & T). destruct (OT p P) as (A1 & A2). exists order. apply DONE; auto.
    + rewrite A1. destruct (tends_step x p a T) as (-> & _). exact OB.
    + apply (KEEP p _ P eq_refl). intros a' T'. now apply tends_step.
    + intros i req' R' N'. rewrite A2. destruct (Nat.eqb_spec i j) as [->|]; [contradiction|]. now apply PE.
    + exists []. now rewrite app_nil_r.
  - destruct (PE j req R N) as (p & P & PP). destruct (OT p P) as (A1 & A2). destruct (pending_step x req p HX SJ PP) as [(-> & Q1 & Q2 & _)|(Q1 & Q2)].
    + exists order. apply DONE; auto.
      * now rewrite A1, Q1.
      * apply (KEEP _ _ P eq_refl). intros a' [T'|(q & ps & n & T' & _)]; discriminate.
      * intros i req' R' N'. rewrite A2. destruct (Nat.eqb_spec i j) as [->|]; [|now apply PE]. assert (req' = req) by congruence. subst. eauto.
      * exists []. now rewrite app_nil_r.
    + exists (order ++ [j]). assert (Lj : (j < length reqs)%nat) by (apply nth_error_Some; congruence). apply DONE.
      * apply (Permutation_NoDup (l := j :: order)); [apply Permutation_cons_append|now constructor].
      * intros i Ii. apply in_app_or in Ii. destruct Ii as [Ii|[<-|[]]]; auto.
      * rewrite (pick_snoc _ _ _ _ R), orun_snoc, <- OB, A1. exact Q1.
      * rewrite (pick_snoc _ _ _ _ R), outs_snoc, <- OB. apply Forall2_app.
        -- apply (KEEP p _ P eq_refl). intros a' [->|(q & ps & n & -> & _)]; exfalso; destruct PP as [PP|(mp & _ & _ & PP)]; discriminate.
        -- constructor; [|constructor]. rewrite A2, Nat.eqb_refl. eexists. split; [reflexivity|exact Q2].
      * intros i req' R' N'. rewrite A2. destruct (Nat.eqb_spec i j) as [->|]; [exfalso; apply N'; apply in_or_app; right; now left|]. apply PE; [exact R'|]. intros X. apply N'. apply in_or_app. now left.
      * now exists [j].
Qed.
Lemma lin_all k : (k <= length sched)%nat -> exists order, lin k order.
Proof.
  induction k as [|k IH]; intros L.
  - exists []. unfold lin, obj_at, thread_at. cbn [firstn vrun fold_left]. unfold s, serving. cbn [v_pcs v_obj]. split; [constructor|]. split; [intros i []|]. split; [reflexivity|]. split; [constructor|]. split.
    + intros i req R _. exists (SBegin req). rewrite nth_error_map, R. split; [reflexivity|now left].
    + intros k' L'. exists [], []. split; [reflexivity|]. split; [|intros b m _ []]. intros a r. assert (k' = 0)%nat by lia. subst. cbn [firstn vrun fold_left v_pcs]. unfold serving. cbn [v_pcs]. rewrite nth_error_map. destruct (nth_error reqs a); discriminate.
  - destruct IH as (order & H); [lia|]. destruct (nth_error sched k) as [j|] eqn:E; [|apply nth_error_None in E; lia]. exact (lin_step k j order E H).
Qed.
End Small.
Lemma L_C78_single_partial : forall o reqs sched, builtin (o_handler o) -> wf_obj o -> Forall small reqs ->
  let s := serving o reqs in
  (forall i, (i < length reqs)%nat -> exists r, nth_error (v_pcs (vrun s sched)) i = Some (SDone r)) ->
  exists order, Permutation order (seq 0 (length reqs)) /\ as_if o reqs order (vrun s sched) /\
    forall a b, earlier s sched a b -> before a b order.
Proof.
  intros o reqs sched B W SM s D. destruct (lin_all o reqs sched B W SM (length sched) (le_n _)) as (order & ND & LO & OB & F2 & PE & HI). fold s in OB, F2, PE, HI.
  unfold obj_at, thread_at in OB, F2, PE. rewrite firstn_all in OB, F2, PE.
  assert (AL : forall i, (i < length reqs)%nat -> In i order).
  { intros i L. destruct (in_dec Nat.eq_dec i order) as [I|N]; [exact I|]. exfalso. destruct (nth_error reqs i) as [req|] eqn:R; [|apply nth_error_None in R; lia].
    destruct (PE i req R N) as (p & P & PP). destruct (D i L) as (r & Dr). destruct PP as [->|(mp & _ & _ & ->)]; congruence. }
  exists order. split; [|split].
  - apply NoDup_Permutation; [exact ND|apply seq_NoDup|]. intros i. rewrite in_seq. split; [intros I; specialize (LO i I); lia|]. intros I. apply AL. lia.
  - split; [exact OB|]. clear -F2 D LO. induction F2 as [|i a l l' (p & P & T) F IH]; [reflexivity|]. cbn [map]. f_equal; [|apply IH; intros; apply LO; now right].
    destruct (D i) as (r & Dr); [apply LO; now left|]. rewrite Dr. destruct T as [->|(q & ps & n & -> & _)]; congruence.
  - intros a b (k & r & m & Ta & Tb). destruct (HI (Nat.min k (length sched))) as (o1 & o2 & Eo & H1 & H2); [lia|].
    assert (Z : firstn (Nat.min k (length sched)) sched = firstn k sched).
    { destruct (Nat.le_ge_cases k (length sched)); [now rewrite Nat.min_l|]. rewrite Nat.min_r by lia. rewrite !firstn_all2; auto. }
    unfold thread_at in *. rewrite Z in H1, H2. specialize (H1 a r Ta). specialize (H2 b m Tb).
    assert (Lb : (b < length reqs)%nat).
    { destruct (le_gt_dec (length reqs) b) as [G|]; [exfalso|assumption]. rewrite <- Z in Tb. pose proof (pcs_len o reqs sched B W (Nat.min k (length sched))) as PL. fold s in PL.
      assert (nth_error (v_pcs (vrun s (firstn (Nat.min k (length sched)) sched))) b = None) by (apply nth_error_None; rewrite PL; lia). congruence. }
    pose proof (AL b Lb) as Ib. rewrite Eo in Ib. apply in_app_or in Ib. destruct Ib as [Ib|Ib]; [contradiction|].
    apply in_split in H1. destruct H1 as (u & v & ->). apply in_split in Ib. destruct Ib as (u' & v' & ->). exists u, (v ++ u'), v'. rewrite Eo, <- !app_assoc. reflexivity.
Qed.

(** ** Large requests *)
Definition two (esv : Z) (ps : list prop) : msg := mkmsg 1 0x05FF01 0x029101 esv ps [] [] None None.
Lemma two_alone x ps : builtin (o_handler x) -> wf_obj x -> snd (obj_message_received x (two 0x62 ps)) =
  Ok (Some (resp_of (two 0x62 ps) (if count (read_answer x) ps =? zlen ps then 0x72 else 0x52) (answers (read_answer x) ps) [] [])).
Proof.
  intros B W. rewrite (received_plain x (two 0x62 ps) (builtin_not_none x B) eq_refl eq_refl). change (do_plain (m_ESV (two 0x62 ps))) with do_read. cbn [m_props two].
  rewrite (loop_read x ps B W). cbn [snd]. unfold OPC, OPCSet, OPCGet. cbn [m_props m_sets m_gets two]. rewrite !Z.add_0_r. change (m_ESV (two 98 ps)) with 0x62. cbn [snd]. unfold response_esv. cbn [Z.eqb Pos.eqb WRITE_REQUEST WRITE_REQUEST_RESPONSE_REQUIRED READ_REQUEST].
  destruct (count (read_answer x) ps =? zlen ps); reflexivity.
Qed.
Lemma two_write x ps : builtin (o_handler x) -> wf_obj x -> written x ps (fst (fst (obj_message_received x (two 0x61 ps)))).
Proof.
  intros B W. rewrite (received_plain x (two 0x61 ps) (builtin_not_none x B) eq_refl eq_refl). change (do_plain (m_ESV (two 0x61 ps))) with do_write. cbn [m_props two].
  destruct (loop_write ps x B W) as (x' & -> & Wr). exact Wr.
Qed.
Lemma read_of x l x' c p d : written x l x' -> o_handler x = HSuper -> get_property c x = Some p -> can_read p = true -> can_write p = true -> last_data c l = Some d ->
  forall y, read_answer x' (mkprop c y) = (d, true).
Proof.
  intros (_ & _ & G) H E R Wt L y. unfold read_answer. cbn [p_code]. rewrite G, E, H. cbn [may_write]. rewrite Wt, L. change (can_read (set_op_data d p)) with (can_read p). now rewrite R.
Qed.
Lemma vrun_next o pcs i p o' p' l : nth_error pcs i = Some p -> pstep o p = (o', p') -> vrun (mksst o pcs) (i :: l) = vrun (mksst o' (put pcs i p')) l.
Proof. intros E P. cbn [vrun fold_left]. unfold vstep. cbn [v_pcs v_obj]. now rewrite E, P. Qed.
Lemma two_begins o e ps : o_handler o = HSuper -> is_request e = true -> is_write_read_request e = false ->
  pstep o (SBegin (two e ps)) = (o, SProps (two e ps) (m_props (two e ps)) [] 0).
Proof. intros H R N. cbn [pstep two m_ESV]. rewrite R, H, N. reflexivity. Qed.
Lemma two_reads o rs mp todo ps n : builtin (o_handler o) -> wf_obj o -> pstep o (SProps (two 0x62 rs) (mp :: todo) ps n) =
  (o, SProps (two 0x62 rs) todo (ps ++ [mkprop (p_code mp) (fst (read_answer o mp))]) (n + if snd (read_answer o mp) then 1 else 0)).
Proof. intros B W. cbn [pstep]. change (do_plain (m_ESV (two 0x62 rs))) with do_read. now rewrite (do_read_builtin o mp B W). Qed.
Lemma two_writes o ws mp todo ps n : builtin (o_handler o) -> wf_obj o -> pstep o (SProps (two 0x61 ws) (mp :: todo) ps n) =
  (apply_write o mp, SProps (two 0x61 ws) todo (ps ++ [mkprop (p_code mp) (fst (write_answer o mp))]) (n + if snd (write_answer o mp) then 1 else 0)).
Proof. intros B W. cbn [pstep]. change (do_plain (m_ESV (two 0x61 ws))) with do_write. now rewrite (do_write_builtin o mp B W). Qed.
Lemma L_C78_torn_refuted : forall o c1 c2 p1 p2 d1 d2, o_handler o = HSuper -> wf_obj o -> c1 <> c2 ->
  get_property c1 o = Some p1 -> get_property c2 o = Some p2 ->
  can_read p1 = true -> can_write p1 = true -> can_read p2 = true -> can_write p2 = true ->
  d1 <> op_data p1 -> d2 <> op_data p2 ->
  exists w r sched, let reqs := [w; r] in let s := vrun (serving o reqs) sched in
    asked_writes w = [mkprop c1 d1; mkprop c2 d2] /\ map p_code (asked_reads r) = [c1; c2] /\
    (exists a b, v_pcs s = [SDone (Ok (Some a)); SDone (Ok (Some b))] /\
       m_props b = [mkprop c1 (op_data p1); mkprop c2 d2]) /\
    forall order, Permutation order [0; 1]%nat -> ~ as_if o reqs order s.
Proof.
  intros o c1 c2 p1 p2 d1 d2 H W NC G1 G2 R1 W1 R2 W2 N1 N2.
  assert (B : builtin (o_handler o)) by (left; exact H).
  set (ws := [mkprop c1 d1; mkprop c2 d2]). set (rs := [mkprop c1 []; mkprop c2 []]).
  exists (two 0x61 ws), (two 0x62 rs), [1; 1; 0; 0; 0; 0; 1; 1]%nat. cbv zeta.
  split; [reflexivity|]. split; [reflexivity|].
  set (s := vrun (serving o [two 0x61 ws; two 0x62 rs]) [1; 1; 0; 0; 0; 0; 1; 1]%nat).
  assert (L1 : last_data c1 ws = Some d1) by (cbn [ws last_data p_code p_data]; rewrite (proj2 (Z.eqb_neq c2 c1)) by congruence; now rewrite Z.eqb_refl).
  assert (L2 : last_data c2 ws = Some d2) by (cbn [ws last_data p_code p_data]; now rewrite Z.eqb_refl).
  assert (Q1 : forall y, read_answer o (mkprop c1 y) = (op_data p1, true)) by (intros y; unfold read_answer; cbn [p_code]; now rewrite G1, R1).
  assert (Q2 : forall y, read_answer o (mkprop c2 y) = (op_data p2, true)) by (intros y; unfold read_answer; cbn [p_code]; now rewrite G2, R2).
  assert (PC : exists a b, v_pcs s = [SDone (Ok (Some a)); SDone (Ok (Some b))] /\ m_props b = [mkprop c1 (op_data p1); mkprop c2 d2]).
  { set (o1 := apply_write o (mkprop c1 d1)). set (o2 := apply_write o1 (mkprop c2 d2)).
    pose proof (written_one o (mkprop c1 d1)) as T1. fold o1 in T1. pose proof (written_one o1 (mkprop c2 d2)) as T2. fold o2 in T2. pose proof (written_trans _ _ _ _ _ T1 T2) as T. cbn [app] in T. fold ws in T.
    assert (B1 : builtin (o_handler o1)) by (left; now rewrite (written_handler _ _ _ T1)). assert (B2 : builtin (o_handler o2)) by (left; now rewrite (written_handler _ _ _ T)).
    pose proof (written_wf _ _ _ T1 W) as V1. pose proof (written_wf _ _ _ T W) as V2.
    assert (PC : v_pcs s = [SDone (answer_of (two 0x61 ws) [mkprop c1 (fst (write_answer o (mkprop c1 d1))); mkprop c2 (fst (write_answer o1 (mkprop c2 d2)))] [] [] (0 + (if snd (write_answer o (mkprop c1 d1)) then 1 else 0) + (if snd (write_answer o1 (mkprop c2 d2)) then 1 else 0)));
      SDone (answer_of (two 0x62 rs) [mkprop c1 (fst (read_answer o (mkprop c1 []))); mkprop c2 (fst (read_answer o2 (mkprop c2 [])))] [] [] (0 + (if snd (read_answer o (mkprop c1 [])) then 1 else 0) + (if snd (read_answer o2 (mkprop c2 [])) then 1 else 0)))]).
    { unfold s, serving. cbn [map].
      erewrite vrun_next; [|reflexivity|exact (two_begins o 0x62 rs H eq_refl eq_refl)]. cbn [put m_props two].
      erewrite vrun_next; [|reflexivity|exact (two_reads o rs _ _ _ _ B W)]. cbn [put app p_code].
      erewrite vrun_next; [|reflexivity|exact (two_begins o 0x61 ws H eq_refl eq_refl)]. cbn [put m_props two].
      erewrite vrun_next; [|reflexivity|exact (two_writes o ws _ _ _ _ B W)]. cbn [put app p_code]. fold o1.
      erewrite vrun_next; [|reflexivity|exact (two_writes o1 ws _ _ _ _ B1 V1)]. cbn [put app p_code]. fold o2.
      erewrite vrun_next; [|reflexivity|reflexivity]. cbn [put].
      erewrite vrun_next; [|reflexivity|exact (two_reads o2 rs _ _ _ _ B2 V2)]. cbn [put app p_code].
      erewrite vrun_next; [|reflexivity|reflexivity]. cbn [put]. reflexivity. }
    rewrite PC. clear PC.
    rewrite (read_of _ _ _ _ _ _ T H G2 R2 W2 L2), Q1. cbn [fst snd]. unfold answer_of, response_esv. cbn [two m_ESV Z.eqb Pos.eqb WRITE_REQUEST WRITE_REQUEST_RESPONSE_REQUIRED READ_REQUEST].
    destruct (_ =? _); destruct (_ =? _); eexists _, _; (split; [reflexivity|]); reflexivity. }
  destruct PC as (a & b & PC & Mb). split; [exists a, b; auto|].
  intros order P (_ & A). apply Permutation_sym, Permutation_length_2_inv in P. destruct P as [->| ->]; cbn [map] in A; rewrite PC in A; cbn [nth_error pick flat_map app obj_outs map] in A.
  - assert (X : Some (SDone (Ok (Some b))) = Some (SDone (snd (obj_message_received (obj_step o (two 97 ws)) (two 98 rs))))) by congruence. clear A.
    pose proof (two_write o ws B W) as T. fold (obj_step o (two 0x61 ws)) in T. rewrite two_alone in X by (first [left; rewrite (written_handler _ _ _ T); exact H|exact (written_wf _ _ _ T W)]).
    match type of X with Some (SDone (Ok (Some _))) = Some (SDone (Ok (Some ?z))) => assert (Y : m_props b = m_props z) by congruence end.
    rewrite Mb in Y. cbn [resp_of m_props rs answers map p_code] in Y. rewrite (read_of _ _ _ _ _ _ T H G1 R1 W1 L1) in Y. cbn [fst] in Y. congruence.
  - assert (X : Some (SDone (Ok (Some b))) = Some (SDone (snd (obj_message_received o (two 98 rs))))) by congruence. clear A.
    rewrite two_alone in X by assumption.
    match type of X with Some (SDone (Ok (Some _))) = Some (SDone (Ok (Some ?z))) => assert (Y : m_props b = m_props z) by congruence end.
    rewrite Mb in Y. cbn [resp_of m_props rs answers map p_code] in Y. rewrite Q2 in Y. cbn [fst] in Y. congruence.
Qed.
Lemma data_of x l x' c p d : written x l x' -> o_handler x = HSuper -> get_property c x = Some p -> can_write p = true -> last_data c l = Some d ->
  option_map op_data (get_property c x') = Some d.
Proof. intros (_ & _ & G) H E Wt L. rewrite G, E, H. cbn [may_write]. rewrite Wt, L. reflexivity. Qed.
Lemma L_C78_mixed_refuted : forall o c1 c2 p1 p2 d1 d2 e1 e2, o_handler o = HSuper -> wf_obj o -> c1 <> c2 ->
  get_property c1 o = Some p1 -> get_property c2 o = Some p2 -> can_write p1 = true -> can_write p2 = true ->
  d1 <> e1 -> d2 <> e2 ->
  exists v w sched, let reqs := [v; w] in let s := vrun (serving o reqs) sched in
    asked_writes v = [mkprop c1 d1; mkprop c2 d2] /\ asked_writes w = [mkprop c1 e1; mkprop c2 e2] /\
    (forall i, (i < 2)%nat -> exists r, nth_error (v_pcs s) i = Some (SDone r)) /\
    option_map op_data (get_property c1 (v_obj s)) = Some e1 /\ option_map op_data (get_property c2 (v_obj s)) = Some d2 /\
    forall order, Permutation order [0; 1]%nat -> v_obj s <> obj_run o (pick reqs order).
Proof.
  intros o c1 c2 p1 p2 d1 d2 e1 e2 H W NC G1 G2 W1 W2 N1 N2.
  assert (B : builtin (o_handler o)) by (left; exact H).
  set (vs := [mkprop c1 d1; mkprop c2 d2]). set (ws := [mkprop c1 e1; mkprop c2 e2]).
  exists (two 0x61 vs), (two 0x61 ws), [0; 0; 1; 1; 1; 0; 0; 1; 0; 1]%nat. cbv zeta.
  split; [reflexivity|]. split; [reflexivity|].
  set (sc := [0; 0; 1; 1; 1; 0; 0; 1; 0; 1]%nat). set (s := vrun (serving o [two 0x61 vs; two 0x61 ws]) sc).
  split. { intros [|[|i]] L; [| |lia]; (eapply L_C78_ends; [reflexivity|]; cbn; lia). }
  assert (T : written o (writes_made [two 0x61 vs; two 0x61 ws] sc) (v_obj s)) by now apply L_C78_object.
  change (writes_made [two 0x61 vs; two 0x61 ws] sc) with [mkprop c1 d1; mkprop c1 e1; mkprop c2 e2; mkprop c2 d2] in T.
  assert (E1 : option_map op_data (get_property c1 (v_obj s)) = Some e1).
  { apply (data_of _ _ _ _ _ _ T H G1 W1). cbn [last_data p_code p_data]. rewrite (proj2 (Z.eqb_neq c2 c1)) by congruence. now rewrite Z.eqb_refl. }
  assert (E2 : option_map op_data (get_property c2 (v_obj s)) = Some d2).
  { apply (data_of _ _ _ _ _ _ T H G2 W2). cbn [last_data p_code p_data]. now rewrite Z.eqb_refl. }
  split; [exact E1|]. split; [exact E2|]. intros order P X. rewrite X in E1, E2.
  assert (SEQ : forall a b, written o (a ++ b) (obj_run o [two 0x61 a; two 0x61 b])).
  { intros a b. pose proof (two_write o a B W) as Ta. fold (obj_step o (two 0x61 a)) in Ta. cbn [obj_run fold_left]. refine (written_trans _ _ _ _ _ Ta _).
    apply two_write; [left; rewrite (written_handler _ _ _ Ta); exact H|exact (written_wf _ _ _ Ta W)]. }
  apply Permutation_sym, Permutation_length_2_inv in P. destruct P as [->| ->]; cbn [pick flat_map nth_error app] in E1, E2.
  - rewrite (data_of _ _ _ _ _ e2 (SEQ vs ws) H G2 W2) in E2; [congruence|]. cbn [vs ws app last_data p_code p_data]. now rewrite Z.eqb_refl.
  - rewrite (data_of _ _ _ _ _ d1 (SEQ ws vs) H G1 W1) in E1; [congruence|]. cbn [vs ws app last_data p_code p_data]. rewrite (proj2 (Z.eqb_neq c2 c1)) by congruence. now rewrite Z.eqb_refl.
Qed.
