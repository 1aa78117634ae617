(** Several controllers and several devices (C97): the network, and the reference it is compared with. *)
From Verif Require Import PyBase MsgM PropM ObjM SpecWire SpecReq NodeM LocalM CtrlM SpecNode SpecLocal SpecSrv SpecCtrl SpecEnd SpecSess SpecMany.
From Verif Require Import SpecReq.
Local Open Scope nat_scope.

(** ** What happens on the network *)
Inductive mevent :=
| MPost (i : nat) (p : dest) (code : Z) (k : call)   (* controller [i] calls post_message with destination [p] *)
| MServe (j : nat)                        (* the [j]-th request on its way arrives at its device *)
| MAnswer (j : nat)                       (* the [j]-th answer on its way arrives at its controller *)
| MLoseRequest (j : nat)
| MLoseAnswer (j : nat)
| MReturn (i : nat).                      (* post_message of controller [i] returns *)

(** A device or controller: its operating system, its address, the server at which datagrams arrive,
    its state, and (controllers) whether post_message is running. *)
Record peer := mkpeer { y_os : os; y_addr : addr; y_srv : nat; y_node : lnode; y_tr : trace; y_busy : bool }.
(** Datagrams on their way: the number of the sender, the number of the receiver, the bytes. *)
Record mnet := mkmnet { y_devs : list peer; y_clis : list peer; y_reqs : list (nat * nat * list Z); y_anss : list (nat * nat * list Z) }.
Definition set_peer (s : lnode) (tr : trace) (b : bool) (c : peer) : peer := mkpeer (y_os c) (y_addr c) (y_srv c) s tr b.
(** The datagrams among [evs], sent by [from], that reach the peers of [l]. *)
Definition to_peers (from : nat) (l : list peer) (evs : trace) : list (nat * nat * list Z) :=
  concat (map (fun '(i, c) => map (pair (from, i)) (reach (y_addr c) evs)) (combine (seq 0 (length l)) l)).

Definition mnet_step {PS : PySet} (x : mnet) (e : mevent) : mnet * list (nat * option msg) :=
  let '(mkmnet ds cs rs xs) := x in
  match e with
  | MPost i p code k =>
      match nth_error cs i with
      | Some c =>
          if y_busy c then (x, [])
          else match post_begin (y_os c) (y_tr c) (y_node c) (request code k) p with
               | (s1, t1, _, Ok true) => (mkmnet ds (put_nth i (set_peer s1 t1 true c) cs) (rs ++ to_peers i ds (since (y_tr c) t1)) xs, [])
               | (s1, t1, _, _) => (mkmnet ds (put_nth i (set_peer s1 t1 false c) cs) rs xs, [(i, None)])
               end
      | None => (x, [])
      end
  | MServe j =>
      match nth_error rs j with
      | Some (i, d, b) =>
          match nth_error cs i, nth_error ds d with
          | Some c, Some v => let '(s1, t1) := arrive (y_os v) (y_tr v) (y_node v) (y_srv v) (y_addr c) [b] in
                      (mkmnet (put_nth d (set_peer s1 t1 (y_busy v) v) ds) cs (drop_nth j rs) (xs ++ to_peers d cs (since (y_tr v) t1)), [])
          | _, _ => (x, [])
          end
      | None => (x, [])
      end
  | MAnswer j =>
      match nth_error xs j with
      | Some (d, i, b) =>
          match nth_error ds d, nth_error cs i with
          | Some v, Some c => let '(s1, t1) := arrive (y_os c) (y_tr c) (y_node c) (y_srv c) (y_addr v) [b] in
                      (mkmnet ds (put_nth i (set_peer s1 t1 (y_busy c) c) cs) rs (drop_nth j xs), [])
          | _, _ => (x, [])
          end
      | None => (x, [])
      end
  | MLoseRequest j => (mkmnet ds cs (drop_nth j rs) xs, [])
  | MLoseAnswer j => (mkmnet ds cs rs (drop_nth j xs), [])
  | MReturn i =>
      match nth_error cs i with
      | Some c => if y_busy c then (mkmnet ds (put_nth i (set_peer (y_node c) (y_tr c) false c) cs) rs xs, [(i, post_end (y_node c))]) else (x, [])
      | None => (x, [])
      end
  end.
(** The calls that returned, in order, with what they returned. *)
Fixpoint mnet_run {PS : PySet} (x : mnet) (l : list mevent) : mnet * list (nat * option msg) :=
  match l with
  | [] => (x, [])
  | e :: r => let '(x1, o1) := mnet_step x e in let '(x2, o2) := mnet_run x1 r in (x2, o1 ++ o2)
  end.

(** ** The reference: one store per device, calls with numbers instead of messages *)
(** A call: the address it is made to, the object and the kind. *)
Definition mcall := (addr * (Z * call))%type.
(** An answer, with the address of the device that gave it and the object. *)
Definition manswer := (addr * (Z * answer))%type.
Record mcli := mkmcli { z_num : nat; z_busy : bool; z_got : option manswer }.
(** [z_stores]: the stores of the addresses that have a device. *)
Record mref := mkmref { z_stores : addr -> option store; z_clis : list mcli; z_reqs : list (tag * mcall); z_anss : list (tag * manswer);
  z_log : list (tag * mcall); z_posts : list (tag * mcall) }.
Definition set_store (a : addr) (S : store) (T : addr -> option store) : addr -> option store :=
  fun b => if addr_eqb a b then Some S else T b.

Definition mref_step (x : mref) (e : mevent) : mref * list (tag * option manswer) :=
  let '(mkmref T cs rs xs lg ps) := x in
  match e with
  | MPost i p code k =>
      match nth_error cs i, dest_addr p with
      | Some c, Some a =>
          if z_busy c then (x, [])
          else let t := (mktag i (Datatypes.S (z_num c)), (a, (code, k))) in
               (mkmref T (put_nth i (mkmcli (Datatypes.S (z_num c)) true None) cs) (rs ++ match T a with Some _ => [t] | None => [] end) xs lg (ps ++ [t]), [])
      | _, _ => (x, [])
      end
  | MServe j =>
      match nth_error rs j with
      | Some (t, (a, (code, k))) =>
          match T a with
          | Some St =>
              (mkmref (set_store a (store_after St code k) T) cs (drop_nth j rs)
                 (xs ++ match store_reply St code k with Some r => [(t, (a, (code, r)))] | None => [] end) (lg ++ [(t, (a, (code, k)))]) ps, [])
          | None => (x, [])
          end
      | None => (x, [])
      end
  | MAnswer j =>
      match nth_error xs j with
      | Some (t, r) =>
          match nth_error cs (g_cli t) with
          | Some c => (mkmref T (if z_busy c && (z_num c =? g_num t) && match z_got c with None => true | Some _ => false end then put_nth (g_cli t) (mkmcli (z_num c) true (Some r)) cs else cs) rs (drop_nth j xs) lg ps, [])
          | None => (x, [])
          end
      | None => (x, [])
      end
  | MLoseRequest j => (mkmref T cs (drop_nth j rs) xs lg ps, [])
  | MLoseAnswer j => (mkmref T cs rs (drop_nth j xs) lg ps, [])
  | MReturn i =>
      match nth_error cs i with
      | Some c => if z_busy c then (mkmref T (put_nth i (mkmcli (z_num c) false None) cs) rs xs lg ps, [(mktag i (z_num c), z_got c)]) else (x, [])
      | None => (x, [])
      end
  end.
Fixpoint mref_run (x : mref) (l : list mevent) : mref * list (tag * option manswer) :=
  match l with
  | [] => (x, [])
  | e :: r => let '(x1, o1) := mref_step x e in let '(x2, o2) := mref_run x1 r in (x2, o1 ++ o2)
  end.
Definition mref_start (T : addr -> option store) (n : nat) : mref := mkmref T (repeat (mkmcli 0 false None) n) [] [] [] [].
(** The calls of [lg] to the device at [a]. *)
Definition calls_to (a : addr) (lg : list (tag * mcall)) : list (Z * call) :=
  map (fun y => snd (snd y)) (filter (fun y => addr_eqb a (fst (snd y))) lg).

(** A result of the reference as post_message returns it; [ts] are the TIDs before the run. *)
Definition m_returned (ts : list Z) (r : tag * option manswer) : nat * option msg :=
  let '(mktag i n, a) := r in
  (i, option_map (fun '(an, (code, (e, ps, ss, gs))) => mkmsg (tid_after (nth i ts 0%Z) n) code 0x0EF001 e ps ss gs (Some an) None) a).

(** ** What is assumed of a run *)
Definition mevent_ok (x : mref) (e : mevent) : Prop :=
  match e with
  | MPost i p code k => post_ok code k /\ dest_addr p <> None /\ (match nth_error (z_clis x) i with Some c => (Z.of_nat (z_num c) < 65535)%Z | None => True end)
  | MServe j => match nth_error (z_reqs x) j with
                | Some (_, (a, (code, k))) => match z_stores x a with Some St => call_ok St code k | None => True end
                | None => True
                end
  | _ => True
  end.
Fixpoint mrun_ok (x : mref) (l : list mevent) : Prop :=
  match l with [] => True | e :: r => mevent_ok x e /\ mrun_ok (fst (mref_step x e)) r end.
(** Controllers with different addresses, online, that have found all devices. *)
Definition ready_ctl (ds : list peer) (c : peer) : Prop :=
  quiet (y_os c) /\ reliable (y_os c) /\ online (y_node c) (y_srv c) /\
  ln_ctl (y_node c) <> None /\ (forall v, In v ds -> has_found (y_node c) (fst (y_addr v))) /\
  (0 <= g_tid (ln_mgr (y_node c)) <= 65535)%Z /\ y_busy c = false.
(** Devices with the contents of [T]. *)
Definition ready_dev (T : addr -> option store) (v : peer) : Prop :=
  quiet (y_os v) /\ reliable (y_os v) /\ online (y_node v) (y_srv v) /\ ln_ctl (y_node v) = None /\
  exists St, T (y_addr v) = Some St /\ mirrors (y_node v) St /\ store_ok St.
Definition multi_ready (T : addr -> option store) (x : mnet) : Prop :=
  Forall (ready_ctl (y_devs x)) (y_clis x) /\ Forall (ready_dev T) (y_devs x) /\
  NoDup (map y_addr (y_clis x)) /\ NoDup (map y_addr (y_devs x)) /\
  (forall a, T a <> None -> In a (map y_addr (y_devs x))) /\ y_reqs x = [] /\ y_anss x = [].
Definition multi_tids (x : mnet) : list Z := map (fun c => g_tid (ln_mgr (y_node c))) (y_clis x).
