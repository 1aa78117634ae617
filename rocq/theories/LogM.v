(** Model of /repo/uecho/log and of the log lines that /repo/uecho/frame writes. *)
From Coq Require Import Decimal DecimalString.
From Verif Require Import PyBase BytesM MsgM PropM ObjM NodeM LocalM CtrlM.

(** ** uecho/log *)
(** log/constants.py:17-23; the numbers are those of the module logging. *)
Definition DEBUG : Z := 10.
Definition INFO : Z := 20.
Definition WARNING : Z := 30.
Definition ERROR : Z := 40.
Definition CRITICAL : Z := 50.

(** The logger 'echo' of log/__init__.py:22-26: its own level, 0 until setLevel is called, and the
    level of the root logger (30 unless the application changes it). *)
Record logger := mklogger { lg_level : Z; lg_root : Z }.
(** setLevel, log/logger.py:19-20. *)
Definition setLevel (level : Z) (l : logger) : logger := mklogger level (lg_root l).
(** Logger.getEffectiveLevel and isEnabledFor of the module logging. *)
Definition effective (l : logger) : Z := if lg_level l =? 0 then lg_root l else lg_level l.
Definition enabled (l : logger) (level : Z) : bool := effective l <=? level.

(** What is handed to the logger: the level and the text. *)
Notation record := (Z * string)%type.
(** debug, info, warning, error, log/logger.py:23-36. *)
Definition debug (s : string) : record := (DEBUG, s).
Definition info (s : string) : record := (INFO, s).
Definition warning (s : string) : record := (WARNING, s).
Definition error (s : string) : record := (ERROR, s).
(** %(levelname)s for the levels above. *)
Definition levelname (level : Z) : string :=
  if level =? DEBUG then "DEBUG" else if level =? INFO then "INFO" else if level =? WARNING then "WARNING"
  else if level =? ERROR then "ERROR" else "CRITICAL".
(** The formatter of log/__init__.py:24, '%(asctime)s [%(levelname)s] %(message)s'; [clock] gives
    the time of the n-th record. *)
Definition format (clock : nat -> string) (n : nat) (r : record) : string :=
  (clock n ++ " [" ++ levelname (fst r) ++ "] " ++ snd r)%string.
(** What the stream handler prints of records handed to the logger one after the other. *)
Fixpoint printed (clock : nat -> string) (l : logger) (n : nat) (rs : list record) : list string :=
  match rs with
  | [] => []
  | r :: t => if enabled l (fst r) then format clock n r :: printed clock l (S n) t else printed clock l (S n) t
  end.

(** ** The lines of the servers *)
(** str.ljust *)
Fixpoint blanks (n : nat) : string := match n with O => "" | S k => String " " (blanks k) end.
Definition ljust (n : nat) (s : string) : string := (s ++ blanks (n - String.length s))%string.
(** str of an int *)
Definition str_int (z : Z) : string := NilZero.string_of_int (Z.to_int z).
(** '%s:%s' % (ip.ljust(15), str(port).ljust(5)) *)
Definition endpoint (ip : string) (port : Z) : string := (ljust 15 ip ++ ":" ++ ljust 5 (str_int port))%string.
(** bytes.hex() *)
Definition lower (c : ascii) : ascii := let n := nat_of_ascii c in if (65 <=? n)%nat && (n <=? 90)%nat then ascii_of_nat (n + 32) else c.
Fixpoint lower_str (s : string) : string := match s with "" => "" | String c r => String (lower c) (lower_str r) end%string.
Definition to_hex (b : list Z) : string := lower_str (to_hex_upper b).
(** server.py:60 and 69 *)
Definition received_line (ifaddr : string) (from : addr) (text : string) : string :=
  (endpoint ifaddr PORT ++ " <- " ++ endpoint (fst from) (snd from) ++ " " ++ text)%string.
(** unicast_server.py:42 and 55 *)
Definition sent_line (ifaddr : string) (to : addr) (text : string) : string :=
  (endpoint ifaddr PORT ++ " -> " ++ endpoint (fst to) (snd to) ++ " " ++ text)%string.

(** UnicastServer.announce_message and send_message from the line on, unicast_server.py:41-47, 54-60:
    [NodeM.server_transmit] with the records. *)
Definition transmit_logged (w : os) (tr : trace) (s : server) (m : msg) (a : addr)
  : trace * msg * list record * res bool :=
  let m := set_to (Some a) m in
  match to_string m with
  | Err e => (tr, m, [], Err e)
  | Ok t =>
    let line := sent_line (s_if s) a t in
    match to_bytes m with
    | Err e => (tr, m, [], Err e)
    | Ok b =>
      let r := os_sendto w tr (s_if s) b a in
      let tr' := tr ++ [EvSend (s_if s) b a r] in
      match r with
      | Err e => (tr', m, [], Err e)
      | Ok n => if n <=? 0 then (tr', m, [error line], Ok false) else (tr', m, [debug line], Ok true)
      end
    end
  end.
(** The records of a trace: the servers are the only place that sends and, but for the line of the
    receiving loop, the only place that logs. *)
Definition event_records (ev : event) : list record :=
  match ev with
  | EvSend i b a (Ok n) => let line := sent_line i a (to_hex_upper b) in [if n <=? 0 then error line else debug line]
  | _ => []
  end.
Definition trace_records (tr : trace) : list record := flat_map event_records tr.

Section Log.
Context {PS : PySet}.
(** One turn of the loop of Server.run, server.py:54-72: [CtrlM.deliver] with the records. *)
Definition deliver_logged (w : os) (tr : trace) (s : lnode) (i : nat) (d : datagram) : lnode * trace * list record :=
  match nth_error (g_servers (ln_mgr s)) i with
  | None => (s, tr, [])
  | Some v =>
    if negb (s_alive v) then (s, tr, [])
    else
      match parse_bytes new_msg (firstn RECV_SIZE (fst d)) with
      | (_, Err _) => (kill i s, tr, [])
      | (_, Ok false) => (s, tr, [error (received_line (s_if v) (snd d) (to_hex (firstn RECV_SIZE (fst d))))])
      | (m, Ok true) =>
        let m := set_from (Some (snd d)) m in
        match to_string m with
        | Err _ => (kill i s, tr, [])
        | Ok t =>
          let line := debug (received_line (s_if v) (snd d) t) in
          match notify w tr s (s_obs v) m with
          | (s1, tr1, Err _) => (kill i s1, tr1, line :: trace_records (skipn (length tr) tr1))
          | (s1, tr1, Ok _) => (s1, tr1, line :: trace_records (skipn (length tr) tr1))
          end
        end
      end
  end.
Fixpoint run_logged (w : os) (tr : trace) (s : lnode) (l : list (nat * datagram)) : lnode * trace * list record :=
  match l with
  | [] => (s, tr, [])
  | (i, d) :: r => let '(s1, tr1, g1) := deliver_logged w tr s i d in let '(s2, tr2, g2) := run_logged w tr1 s1 r in (s2, tr2, g1 ++ g2)
  end.
End Log.
