(** Several controllers and one device (C82): the network, and the reference it is compared with. *)
From Verif Require Import PyBase MsgM PropM ObjM SpecWire SpecReq NodeM LocalM CtrlM SpecNode SpecLocal SpecSrv SpecCtrl SpecEnd SpecSess.
From Verif Require Import SpecReq.
Local Open Scope nat_scope.

Definition put_nth {A} (i : nat) (a : A) (l : list A) : list A := firstn i l ++ a :: skipn (S i) l.
Definition drop_nth {A} (i : nat) (l : list A) : list A := firstn i l ++ skipn (S i) l.

(** ** What happens on the network *)
Inductive event :=
| EPost (i : nat) (code : Z) (k : call)   (* controller [i] calls post_message *)
| EServe (j : nat)                        (* the [j]-th request on its way arrives at the device *)
| EAnswer (j : nat)                       (* the [j]-th answer on its way arrives at its controller *)
| ELoseRequest (j : nat)
| ELoseAnswer (j : nat)
| EReturn (i : nat).                      (* post_message of controller [i] returns *)

(** A controller: its operating system, its address, the device as it calls it, the server at which
    datagrams from the device arrive, its state, and whether post_message is running. *)
Record cli := mkcli { k_os : os; k_addr : addr; k_dest : dest; k_srv : nat; k_node : lnode; k_tr : trace; k_busy : bool }.
Record net := mknet { w_dev : lnode; w_dtr : trace; w_clis : list cli; w_reqs : list (nat * list Z); w_anss : list (nat * list Z) }.
Definition set_cli (s : lnode) (tr : trace) (b : bool) (c : cli) : cli := mkcli (k_os c) (k_addr c) (k_dest c) (k_srv c) s tr b.
(** The datagrams among [evs] that reach the controllers. *)
Definition to_clis (l : list cli) (evs : trace) : list (nat * list Z) :=
  concat (map (fun '(i, c) => map (pair i) (reach (k_addr c) evs)) (combine (seq 0 (length l)) l)).

Definition net_step {PS : PySet} (wd : os) (jd : nat) (an : addr) (x : net) (e : event) : net * list (nat * option msg) :=
  let '(mknet d td cs rs xs) := x in
  match e with
  | EPost i code k =>
      match nth_error cs i with
      | Some c =>
          if k_busy c then (x, [])
          else match post_begin (k_os c) (k_tr c) (k_node c) (request code k) (k_dest c) with
               | (s1, t1, _, Ok true) => (mknet d td (put_nth i (set_cli s1 t1 true c) cs) (rs ++ map (pair i) (reach an (since (k_tr c) t1))) xs, [])
               | (s1, t1, _, _) => (mknet d td (put_nth i (set_cli s1 t1 false c) cs) rs xs, [(i, None)])
               end
      | None => (x, [])
      end
  | EServe j =>
      match nth_error rs j with
      | Some (i, b) =>
          match nth_error cs i with
          | Some c => let '(d1, td1) := arrive wd td d jd (k_addr c) [b] in
                      (mknet d1 td1 cs (drop_nth j rs) (xs ++ to_clis cs (since td td1)), [])
          | None => (x, [])
          end
      | None => (x, [])
      end
  | EAnswer j =>
      match nth_error xs j with
      | Some (i, b) =>
          match nth_error cs i with
          | Some c => let '(s1, t1) := arrive (k_os c) (k_tr c) (k_node c) (k_srv c) an [b] in
                      (mknet d td (put_nth i (set_cli s1 t1 (k_busy c) c) cs) rs (drop_nth j xs), [])
          | None => (x, [])
          end
      | None => (x, [])
      end
  | ELoseRequest j => (mknet d td cs (drop_nth j rs) xs, [])
  | ELoseAnswer j => (mknet d td cs rs (drop_nth j xs), [])
  | EReturn i =>
      match nth_error cs i with
      | Some c => if k_busy c then (mknet d td (put_nth i (set_cli (k_node c) (k_tr c) false c) cs) rs xs, [(i, post_end (k_node c))]) else (x, [])
      | None => (x, [])
      end
  end.
(** The calls that returned, in order, with what they returned. *)
Fixpoint net_run {PS : PySet} (wd : os) (jd : nat) (an : addr) (x : net) (l : list event) : net * list (nat * option msg) :=
  match l with
  | [] => (x, [])
  | e :: r => let '(x1, o1) := net_step wd jd an x e in let '(x2, o2) := net_run wd jd an x1 r in (x2, o1 ++ o2)
  end.

(** ** The reference: one store, calls with numbers instead of messages *)
Definition answer := (Z * list prop * list prop * list prop)%type.
Record tag := mktag { g_cli : nat; g_num : nat }.
Record rcli := mkrcli { v_num : nat; v_busy : bool; v_got : option (Z * answer) }.
(** [v_log] lists the calls in the order the device treated them, [v_posts] in the order made. *)
Record rnet := mkrnet { v_store : store; v_clis : list rcli; v_reqs : list (tag * (Z * call)); v_anss : list (tag * (Z * answer));
  v_log : list (tag * (Z * call)); v_posts : list (tag * (Z * call)) }.

Definition ref_step (x : rnet) (e : event) : rnet * list (tag * option (Z * answer)) :=
  let '(mkrnet St cs rs xs lg ps) := x in
  match e with
  | EPost i code k =>
      match nth_error cs i with
      | Some c =>
          if v_busy c then (x, [])
          else let t := (mktag i (Datatypes.S (v_num c)), (code, k)) in
               (mkrnet St (put_nth i (mkrcli (Datatypes.S (v_num c)) true None) cs) (rs ++ [t]) xs lg (ps ++ [t]), [])
      | None => (x, [])
      end
  | EServe j =>
      match nth_error rs j with
      | Some (t, (code, k)) =>
          (mkrnet (store_after St code k) cs (drop_nth j rs)
             (xs ++ match store_reply St code k with Some a => [(t, (code, a))] | None => [] end) (lg ++ [(t, (code, k))]) ps, [])
      | None => (x, [])
      end
  | EAnswer j =>
      match nth_error xs j with
      | Some (t, a) =>
          match nth_error cs (g_cli t) with
          | Some c => (mkrnet St (if v_busy c && (v_num c =? g_num t) && match v_got c with None => true | Some _ => false end then put_nth (g_cli t) (mkrcli (v_num c) true (Some a)) cs else cs) rs (drop_nth j xs) lg ps, [])
          | None => (x, [])
          end
      | None => (x, [])
      end
  | ELoseRequest j => (mkrnet St cs (drop_nth j rs) xs lg ps, [])
  | ELoseAnswer j => (mkrnet St cs rs (drop_nth j xs) lg ps, [])
  | EReturn i =>
      match nth_error cs i with
      | Some c => if v_busy c then (mkrnet St (put_nth i (mkrcli (v_num c) false None) cs) rs xs lg ps, [(mktag i (v_num c), v_got c)]) else (x, [])
      | None => (x, [])
      end
  end.
Fixpoint ref_run (x : rnet) (l : list event) : rnet * list (tag * option (Z * answer)) :=
  match l with
  | [] => (x, [])
  | e :: r => let '(x1, o1) := ref_step x e in let '(x2, o2) := ref_run x1 r in (x2, o1 ++ o2)
  end.
Definition ref_start (S : store) (n : nat) : rnet := mkrnet S (repeat (mkrcli 0 false None) n) [] [] [] [].

(** The TID of the [n]-th message of a controller whose last TID was [t]. *)
Fixpoint tid_after (t : Z) (n : nat) : Z := match n with O => t | Datatypes.S n => (tid_after t n mod 65535 + 1)%Z end.
(** A result of the reference as post_message returns it; [ts] are the TIDs before the run. *)
Definition as_returned (an : addr) (ts : list Z) (r : tag * option (Z * answer)) : nat * option msg :=
  let '(mktag i n, a) := r in
  (i, option_map (fun '(code, (e, ps, ss, gs)) => mkmsg (tid_after (nth i ts 0%Z) n) code 0x0EF001 e ps ss gs (Some an) None) a).

(** ** What is assumed of a run *)
(** The call fits a frame and a datagram. *)
Definition post_ok (code : Z) (k : call) : Prop :=
  let m := request code k in
  (0 <= code < 2 ^ 24)%Z /\ encodable m /\ Forall data_ok (m_props m) /\ Forall data_ok (m_sets m) /\ length (wire m) <= 1024.
(** Every call fits, also with the answer at the moment it is treated ([call_ok]), and no controller
    makes more than 65535 calls. *)
Definition event_ok (x : rnet) (e : event) : Prop :=
  match e with
  | EPost i code k => post_ok code k /\ (match nth_error (v_clis x) i with Some c => (Z.of_nat (v_num c) < 65535)%Z | None => True end)
  | EServe j => match nth_error (v_reqs x) j with Some (_, (code, k)) => call_ok (v_store x) code k | None => True end
  | _ => True
  end.
Fixpoint run_ok (x : rnet) (l : list event) : Prop :=
  match l with [] => True | e :: r => event_ok x e /\ run_ok (fst (ref_step x e)) r end.
(** Controllers with different addresses, online, that have found the device. *)
Definition ready_cli (an : addr) (c : cli) : Prop :=
  quiet (k_os c) /\ reliable (k_os c) /\ dest_addr (k_dest c) = Some an /\ online (k_node c) (k_srv c) /\
  has_found (k_node c) (fst an) /\ (0 <= g_tid (ln_mgr (k_node c)) <= 65535)%Z /\ k_busy c = false.
Definition all_ready (jd : nat) (an : addr) (S : store) (x : net) : Prop :=
  Forall (ready_cli an) (w_clis x) /\ NoDup (map k_addr (w_clis x)) /\ w_reqs x = [] /\ w_anss x = [] /\
  online (w_dev x) jd /\ ln_ctl (w_dev x) = None /\ mirrors (w_dev x) S /\ store_ok S.
Definition start_tids (x : net) : list Z := map (fun c => g_tid (ln_mgr (k_node c))) (w_clis x).
