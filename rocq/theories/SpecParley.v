(** Specification for calls of any controllers of a network to any of its nodes (C127), with the sites of SpecDisc.v. *)
From Verif Require Import PyBase MsgM PropM ObjM SpecWire SpecReq NodeM LocalM CtrlM SpecNode SpecLocal SpecSrv SpecCtrl SpecEnd SpecSess SpecDisc.
From Verif Require Import SpecReq.

(** The controller at site [q_by] calls object [q_code] of site [q_to], which may be itself and for which
    it uses [q_dst]: an address, the IP address or a node, for instance the one it has found; the
    request arrives [q_req] times at server [q_jd] there, not at all if it is lost, and the answers as often as
    [q_ans] says at server [q_jc] here. *)
Record query := mkquery { q_by : nat; q_to : nat; q_jd : nat; q_jc : nat; q_dst : dest; q_code : Z; q_call : call; q_req : nat; q_ans : list nat }.
Definition copies {A} (ns : list nat) (l : list A) : list A := flat_map (fun '(n, b) => repeat b n) (combine ns l).
(** Datagrams from [a] arrive at server [j] of a site. *)
Definition takes {PS : PySet} (d : site) (j : nat) (a : addr) (bs : list (list Z)) : site :=
  let '(s, tr) := arrive (t_os d) (t_tr d) (t_node d) j a bs in mksite (t_os d) (t_addr d) s tr (t_from d).
(** post_message: the request is sent, what reaches the other site arrives there, what that site then
    sends to the controller arrives, and post_message returns, if need be after its waiting time. *)
Definition parley_call {PS : PySet} (x : list site) (q : query) : list site * option msg :=
  match nth_error x (q_by q), nth_error x (q_to q) with
  | Some c, Some d =>
      let '(s1, tr1, _, r) := post_begin (t_os c) (t_tr c) (t_node c) (request (q_code q) (q_call q)) (q_dst q) in
      let x1 := upd x (q_by q) (mksite (t_os c) (t_addr c) s1 tr1 (t_from c)) in
      match r with
      | Ok true =>
          match nth_error x1 (q_to q) with
          | None => (x1, None)
          | Some d1 =>
              let d2 := takes d1 (q_jd q) (t_addr c) (copies [q_req q] (reach (t_addr d) (since (t_tr c) tr1))) in
              let x2 := upd x1 (q_to q) d2 in
              match nth_error x2 (q_by q) with
              | None => (x2, None)
              | Some c2 =>
                  let c3 := takes c2 (q_jc q) (t_addr d) (copies (q_ans q) (reach (t_addr c) (since (t_tr d1) (t_tr d2)))) in
                  (upd x2 (q_by q) c3, post_end (t_node c3))
              end
          end
      | _ => (x1, None)
      end
  | _, _ => (x, None)
  end.
Fixpoint parley {PS : PySet} (l : list query) (x : list site) : list site * list (option msg) :=
  match l with
  | [] => (x, [])
  | q :: r => let '(x1, a) := parley_call x q in let '(x2, al) := parley r x1 in (x2, a :: al)
  end.

(** ** The reference: a store for each site, without messages or nodes *)
Fixpoint store_times (n : nat) (St : store) (code : Z) (k : call) : store :=
  match n with O => St | S n' => store_times n' (store_after St code k) code k end.
Fixpoint store_replies (n : nat) (St : store) (code : Z) (k : call) :=
  match n with
  | O => []
  | S n' => match store_reply St code k with Some a => [a] | None => [] end ++ store_replies n' (store_after St code k) code k
  end.
Definition stores_after (Ss : list store) (q : query) : list store :=
  match nth_error Ss (q_to q) with
  | Some Sd => upd Ss (q_to q) (store_times (q_req q) Sd (q_code q) (q_call q))
  | None => Ss
  end.
Definition stores_run (Ss : list store) (l : list query) : list store := fold_left stores_after l Ss.
(** The messages the calls return; [x] says which address a site has and whether it is a controller, [ts]
    the last TID each site has used. *)
Fixpoint parley_says (x : list site) (ts : list Z) (Ss : list store) (l : list query) : list (option msg) :=
  match l with
  | [] => []
  | q :: r =>
      match nth_error x (q_to q), nth_error Ss (q_to q), nth_error ts (q_by q) with
      | Some d, Some Sd, Some t =>
          option_map (fun '(e, ps, ss, gs) =>
              mkmsg (t mod 65535 + 1) (match ln_ctl (t_node d) with None => q_code q | Some _ => 0x0EF001 end) 0x0EF001 e ps ss gs (Some (t_addr d)) None)
            (hd_error (copies (q_ans q) (store_replies (q_req q) Sd (q_code q) (q_call q))))
          :: parley_says x (upd ts (q_by q) (t mod 65535 + 1)) (stores_after Ss q) r
      | _, _, _ => []
      end
  end.

(** Sites that work and whose objects have built-in handlers and the contents of the stores. *)
Definition settled (x : list site) (Ss : list store) : Prop :=
  length x = length Ss /\ forall k d Sd, nth_error x k = Some d -> nth_error Ss k = Some Sd ->
  quiet (t_os d) /\ reliable (t_os d) /\ listens (t_node d) /\ 0 <= g_tid (ln_mgr (t_node d)) <= 65535 /\ mirrors (t_node d) Sd /\ store_ok Sd.
(** The caller has found the node it calls and names it, and both have the servers. *)
Definition leads (e : dest) (a : addr) : Prop :=
  match e with DTup b => b = a | DStr ip => a = (ip, 3610%Z) | DNode n => snd a = 3610%Z /\ exists p, n_addr n = Some (fst a, p) | DOther => False end.
Definition acquainted (x : list site) (q : query) : Prop :=
  exists c d, nth_error x (q_by q) = Some c /\ nth_error x (q_to q) = Some d /\ has_found (t_node c) (fst (t_addr d)) /\ leads (q_dst q) (t_addr d) /\
  (q_jd q < servers_of (t_node d))%nat /\ (q_jc q < servers_of (t_node c))%nat.
Fixpoint parley_ok (Ss : list store) (l : list query) : Prop :=
  match l with
  | [] => True
  | q :: r => (exists Sd, nth_error Ss (q_to q) = Some Sd /\ call_ok Sd (q_code q) (q_call q) /\
      forall j, (j < q_req q)%nat -> call_ok (store_times j Sd (q_code q) (q_call q)) (q_code q) (q_call q)) /\ parley_ok (stores_after Ss q) r
  end.
(** What a call writes, and a call that is lost or does not write property [c] of object [code]
    of site [k]. *)
Definition put_by (kl : call) : list prop := match kl with KRead _ => [] | KWrite ps => ps | KPost ps => ps | KWriteRead ps _ => ps end.
Definition hands_off (k : nat) (code c : Z) (q : query) : Prop := q_req q = 0%nat \/ q_to q <> k \/ q_code q <> code \/ ~ In c (map p_code (put_by (q_call q))).
