(** Model of LocalNode.start and stop (/repo/uecho/local_node.py:67-75) with Manager.start, stop and
    add_observer (/repo/uecho/frame/manager.py:55-57, 81-115), Server.start and stop and the loop of
    Server.run (/repo/uecho/frame/server.py:53-72, 94-110), run by several threads: threads of the user that
    call start and stop, and the receiving thread of each server.

    One step is one access to self.servers, one operation on a server, or one element of a loop.
    Simplified: Server.stop closes the socket in one step and then waits for the thread (StopM has these lines
    in single steps, and calls of stop inside callbacks); a callback is one step and does not raise; the
    interfaces are the same at every start.  bind raises OSError or succeeds; the server whose bind raised is
    not kept (server.py:41-42 closes its socket). *)
From Verif Require Import PyBase TidM.

(** A receiving thread: not started, line 56, in recvfrom, about to call the observers, ended. *)
Inductive rpc := RNew | RCheck | RWait | RTell (d : nat) | REnd.
(** A server: its interface, unicast or multicast, self.sock is not None, the node is among its observers,
    datagrams received by the kernel and not yet read, the thread. *)
Record srv := mksrv { v_if : nat; v_uni : bool; v_open : bool; v_obs : bool; v_queue : list nat; v_pc : rpc }.
Definition set_open b v := mksrv (v_if v) (v_uni v) b (v_obs v) (v_queue v) (v_pc v).
Definition set_obs b v := mksrv (v_if v) (v_uni v) (v_open v) b (v_queue v) (v_pc v).
Definition set_queue q v := mksrv (v_if v) (v_uni v) (v_open v) (v_obs v) q (v_pc v).
Definition set_vpc p v := mksrv (v_if v) (v_uni v) (v_open v) (v_obs v) (v_queue v) p.

Inductive call := CStart | CStop.
(** A thread of the user.  [c]: Manager.stop is called by this call; [l]: the list object over which a loop runs, [k]: the
    position; [i], [uni]: the server that is created, [v]: its number. *)
Inductive upc :=
| UIdle
| UStop (c : call) (l k : nat)            (* manager.py:112-113, server.py:101-108 *)
| UJoin (c : call) (l k : nat)            (* server.py:109 *)
| UClear (c : call)                       (* manager.py:114 *)
| UBind (i : nat) (uni : bool)            (* manager.py:88-89, 97-98 *)
| URun (i : nat) (uni : bool) (v : nat)   (* manager.py:92, 101 *)
| UAppend (i : nat) (uni : bool) (v : nat) (* manager.py:95, 104 *)
| UCheck                                  (* manager.py:106-109 *)
| UAddr                                   (* local_node.py:70 *)
| UObs (l k : nat).                       (* local_node.py:71, manager.py:56-57 *)

Inductive ev :=
| EGot (v d : nat)                (* the kernel takes datagram d for server v *)
| ETold (v d : nat)               (* node.message_received *)
| ELost (v d : nat)               (* the server has no observer *)
| ECall (u : nat) (c : call) | EBack (u : nat) (c : call) (r : bool) | ERaise (u : nat).

Record sst := mksst {
  z_srv : list srv;               (* the servers in the order in which they were bound *)
  z_lists : list (list nat);      (* the list objects that self.servers was or is *)
  z_cur : nat;                    (* self.servers *)
  z_addr : option (option nat);   (* the address of the node; Some None: ("", 0) *)
  z_users : list upc }.
Definition set_srv x s := mksst x (z_lists s) (z_cur s) (z_addr s) (z_users s).
Definition set_user u p s := mksst (z_srv s) (z_lists s) (z_cur s) (z_addr s) (put (z_users s) u p).
Definition the_list (s : sst) (l : nat) : list nat := nth l (z_lists s) [].
Definition change (v : nat) (f : srv -> srv) (s : sst) : sst :=
  match nth_error (z_srv s) v with Some x => set_srv (put (z_srv s) v (f x)) s | None => s end.
(** LocalNode() with [n] threads of the user. *)
Definition new_sst (n : nat) : sst := mksst [] [[]] 0 None (repeat UIdle n).
(** Manager.ifaddr, manager.py:41-46. *)
Definition first_uni (s : sst) (l : list nat) : option nat :=
  match find (fun v => match nth_error (z_srv s) v with Some x => v_uni x | None => false end) l with
  | Some v => match nth_error (z_srv s) v with Some x => Some (v_if x) | None => None end
  | None => None
  end.

(** What happens next. *)
Inductive turn :=
| TCall (u : nat) (c : call)      (* thread u calls start or stop *)
| TGo (u : nat)                   (* its next step *)
| TFail (u : nat)                 (* its next step is bind, and that raises *)
| TRecv (v : nat)                 (* the next step of a receiving thread *)
| TArrive (v d : nat).            (* a datagram for the socket of server v *)

Section Start.
Variable n : nat.                 (* the number of interfaces *)

(** The next server after the one for interface [i]. *)
Definition next_bind (i : nat) (uni : bool) : upc := if uni then UBind i false else UBind (S i) true.
Definition ustep (s : sst) (u : nat) (fail : bool) (p : upc) : sst * list ev :=
  let go q s := (set_user u q s, @nil ev) in
  match p with
  | UIdle => (s, [])
  | UStop c l k =>
      match nth_error (the_list s l) k with
      | None => go (UClear c) s
      | Some v =>
          match nth_error (z_srv s) v with
          | Some x => if v_open x then go (UJoin c l k) (change v (set_open false) s) else go (UStop c l (S k)) s
          | None => (s, [])
          end
      end
  | UJoin c l k =>
      match nth_error (the_list s l) k with
      | None => (s, [])
      | Some v =>
          match nth_error (z_srv s) v with
          | Some x => match v_pc x with
                      | REnd => go (UStop c l (S k)) s
                      | RNew => (set_user u UIdle s, [ERaise u])    (* join of a thread that was not started *)
                      | _ => (s, [])
                      end
          | None => (s, [])
          end
      end
  | UClear c =>
      let s := mksst (z_srv s) (z_lists s ++ [[]]) (length (z_lists s)) (z_addr s) (z_users s) in
      match c with
      | CStop => (set_user u UIdle s, [EBack u CStop true])
      | CStart => go (UBind 0 true) s
      end
  | UBind i uni =>
      if Nat.ltb i n then
        if fail then (set_user u UIdle s, [ERaise u])
        else go (URun i uni (length (z_srv s))) (set_srv (z_srv s ++ [mksrv i uni true false [] RNew]) s)
      else go UCheck s
  | URun i uni v => go (UAppend i uni v) (change v (set_vpc RCheck) s)
  | UAppend i uni v =>
      go (next_bind i uni) (mksst (z_srv s) (put (z_lists s) (z_cur s) (the_list s (z_cur s) ++ [v])) (z_cur s) (z_addr s) (z_users s))
  | UCheck =>
      match the_list s (z_cur s) with
      | [] => (set_user u UIdle s, [EBack u CStart false])
      | _ => go UAddr s
      end
  | UAddr => go (UObs (z_cur s) 0) (mksst (z_srv s) (z_lists s) (z_cur s) (Some (first_uni s (the_list s (z_cur s)))) (z_users s))
  | UObs l k =>
      match nth_error (the_list s l) k with
      | None => (set_user u UIdle s, [EBack u CStart true])
      | Some v => go (UObs l (S k)) (change v (set_obs true) s)
      end
  end.
Definition rstep (s : sst) (v : nat) (x : srv) : sst * list ev :=
  let go p := (change v (set_vpc p) s, @nil ev) in
  match v_pc x with
  | RNew | REnd => (s, [])
  | RCheck => go (if v_open x then RWait else REnd)
  | RWait =>
      if v_open x then
        match v_queue x with
        | [] => (s, [])
        | d :: q => (change v (fun y => set_vpc (RTell d) (set_queue q y)) s, [])
        end
      else go REnd
  | RTell d => (change v (set_vpc RCheck) s, [if v_obs x then ETold v d else ELost v d])
  end.
Definition zstep (s : sst) (t : turn) : sst * list ev :=
  match t with
  | TCall u c =>
      match nth_error (z_users s) u with
      | Some UIdle => (set_user u (UStop c (z_cur s) 0) s, [ECall u c])
      | _ => (s, [])
      end
  | TGo u => match nth_error (z_users s) u with Some p => ustep s u false p | None => (s, []) end
  | TFail u => match nth_error (z_users s) u with Some (UBind i uni) => ustep s u true (UBind i uni) | _ => (s, []) end
  | TRecv v => match nth_error (z_srv s) v with Some x => rstep s v x | None => (s, []) end
  | TArrive v d =>
      match nth_error (z_srv s) v with
      | Some x => if v_open x then (change v (fun y => set_queue (v_queue y ++ [d]) y) s, [EGot v d]) else (s, [])
      | None => (s, [])
      end
  end.
Fixpoint zrun (s : sst) (l : list turn) : sst * list ev :=
  match l with
  | [] => (s, [])
  | t :: r => let '(s1, e1) := zstep s t in let '(s2, e2) := zrun s1 r in (s2, e1 ++ e2)
  end.
End Start.
