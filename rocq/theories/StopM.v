(** Model of Manager.stop, Manager.announce_message and Manager.send_message
    (/repo/uecho/frame/manager.py:111-115, 63-79), Server.stop (/repo/uecho/frame/server.py:100-110),
    the loop of Server.run (server.py:53-72), UnicastServer.announce_message and send_message
    (/repo/uecho/frame/unicast_server.py:37-60) run by several threads: the receiving thread of each
    server, and threads of the user.

    One step is one access to self.sock (or self.servers), one operation on a socket, or the wait of
    Thread.join.  A thread that is in recvfrom may still get a datagram when the socket is shut down
    or closed by another thread, or it wakes up and recvfrom raises (or returns no address, which
    raises in line 61); that a blocked recvfrom wakes up is an assumption about the kernel.
    A callback is the treatment of one datagram by the observers: it does nothing that matters here,
    raises, calls node.stop(), or sends or announces a message.  sendto takes every datagram as long as the
    socket is neither shut down nor closed. *)
From Verif Require Import PyBase TidM.

(** A server: unicast or not, self.sock is not None, shut down, closed. *)
Record sk := mksk { k_uni : bool; k_ref : bool; k_shut : bool; k_closed : bool }.

(** How a call ends: with a value, AttributeError, OSError or RuntimeError (of Thread.join). *)
Inductive sres := SVal (b : bool) | SAttr | SOs | SRun.
(** The lines of Server.stop. *)
Inductive sph := PCheck | PShut | PClose | PNone | PJoin.
(** A thread in Manager.stop (with the server it is treating), or in Manager.send_message or
    ([ann]) Manager.announce_message. *)
Inductive tpc :=
| TStopBegin | TStop (k : nat) (ph : sph)
| TSendBegin (ann : bool) | TSend (ann : bool) (k : nat) (checked : bool)
| TDone (r : sres).
(** A receiving thread: line 56, the load of self.sock in line 59, in recvfrom, about to call the
    observers with datagram [d], in a call the callback makes, ended. *)
Inductive rpc := RCheck | RLoad | RWait | RCall (d : nat) | RIn (t : tpc) | REnd.
Inductive deed := DNothing | DRaise | DStop | DSend (ann : bool).

Record qst := mkqst {
  q_socks : list sk;
  q_cleared : bool;              (* self.servers = [] has been executed *)
  q_recv : list rpc;             (* the receiving threads, by server *)
  q_users : list tpc;            (* the threads of the user *)
  q_calls : list (nat * nat);    (* the callbacks begun: server and datagram *)
  q_sent : list nat }.           (* the servers through which datagrams were sent *)
Definition set_socks x s := mkqst x (q_cleared s) (q_recv s) (q_users s) (q_calls s) (q_sent s).
Definition set_cleared s := mkqst (q_socks s) true (q_recv s) (q_users s) (q_calls s) (q_sent s).
Definition set_recv x s := mkqst (q_socks s) (q_cleared s) x (q_users s) (q_calls s) (q_sent s).
Definition set_users x s := mkqst (q_socks s) (q_cleared s) (q_recv s) x (q_calls s) (q_sent s).
Definition add_call x s := mkqst (q_socks s) (q_cleared s) (q_recv s) (q_users s) (q_calls s ++ [x]) (q_sent s).
Definition add_sent x s := mkqst (q_socks s) (q_cleared s) (q_recv s) (q_users s) (q_calls s) (q_sent s ++ [x]).

(** One step of a thread; [self]: the server whose receiving thread it is. *)
Definition tstep (self : option nat) (s : qst) (t : tpc) : qst * tpc :=
  match t with
  | TStopBegin => if q_cleared s then (s, TDone (SVal true)) else (s, TStop 0 PCheck)
  | TStop k ph =>
      match nth_error (q_socks s) k with
      | None => (set_cleared s, TDone (SVal true))
      | Some v =>
          let change v' := set_socks (put (q_socks s) k v') s in
          match ph with
          | PCheck => if k_ref v then (s, TStop k PShut) else (s, TStop (S k) PCheck)
          | PShut => (* every exception is swallowed *)
              (if k_ref v && negb (k_closed v) then change (mksk (k_uni v) true true false) else s, TStop k PClose)
          | PClose => if k_ref v then (change (mksk (k_uni v) true (k_shut v) true), TStop k PNone) else (s, TDone SAttr)
          | PNone => (change (mksk (k_uni v) false (k_shut v) (k_closed v)), TStop k PJoin)
          | PJoin =>
              match self with
              | Some i => if Nat.eqb i k then (s, TDone SRun)
                          else match nth_error (q_recv s) k with Some REnd => (s, TStop (S k) PCheck) | _ => (s, t) end
              | None => match nth_error (q_recv s) k with Some REnd => (s, TStop (S k) PCheck) | _ => (s, t) end
              end
          end
      end
  | TSendBegin ann => if q_cleared s then (s, TDone (SVal ann)) else (s, TSend ann 0 false)
  | TSend ann k checked =>
      match nth_error (q_socks s) k with
      | None => (s, TDone (SVal ann))
      | Some v =>
          if negb (k_uni v) then (s, TSend ann (S k) false)
          else if negb checked then (s, if k_ref v then TSend ann k true else TSend ann (S k) false)
          else if negb (k_ref v) then (s, TDone SAttr)
          else if k_shut v || k_closed v then (s, TDone SOs)
          else (add_sent k s, if ann then TSend ann (S k) false else TDone (SVal true))
      end
  | TDone r => (s, t)
  end.

(** What happens next: a thread of the user makes a step, or the receiving thread of a server does;
    if that one is in recvfrom, it gets a datagram or wakes up without one. *)
Inductive turn := User (u : nat) | Recv (i : nat) (d : option nat).
Definition rstep (cb : nat -> nat -> deed) (s : qst) (i : nat) (d : option nat) (r : rpc) : qst * rpc :=
  match nth_error (q_socks s) i with
  | None => (s, r)
  | Some v =>
    match r with
    | RCheck => (s, if k_ref v then RLoad else REnd)
    | RLoad => (s, if k_ref v && negb (k_shut v || k_closed v) then RWait else REnd)
    | RWait =>
        match d with
        | Some d => (s, RCall d)
        | None => (s, if k_shut v || k_closed v then REnd else RWait)
        end
    | RCall d =>
        (add_call (i, d) s,
         match cb i d with DNothing => RCheck | DRaise => REnd | DStop => RIn TStopBegin | DSend ann => RIn (TSendBegin ann) end)
    | RIn (TDone (SVal _)) => (s, RCheck)
    | RIn (TDone _) => (s, REnd)
    | RIn t => let '(s1, t1) := tstep (Some i) s t in (s1, RIn t1)
    | REnd => (s, REnd)
    end
  end.
Definition qstep (cb : nat -> nat -> deed) (s : qst) (e : turn) : qst :=
  match e with
  | User u =>
      match nth_error (q_users s) u with
      | None => s
      | Some t => let '(s1, t1) := tstep None s t in set_users (put (q_users s1) u t1) s1
      end
  | Recv i d =>
      match nth_error (q_recv s) i with
      | None => s
      | Some r => let '(s1, r1) := rstep cb s i d r in set_recv (put (q_recv s1) i r1) s1
      end
  end.
Definition qrun (cb : nat -> nat -> deed) (s : qst) (l : list turn) : qst := fold_left (qstep cb) l s.
