(** Specifications for the receiving servers (C40, C41, C43). *)
From Verif Require Import PyBase MsgM PropM ObjM SpecWire SpecReq NodeM LocalM CtrlM SpecNode SpecLocal.

(** What user observers of the node were told, in order. *)
Definition told (evs : trace) : list (nat * msg) :=
  flat_map (fun e => match e with EvObs n m => [(n, m)] | _ => [] end) evs.
(** The user observers among the observers of a server. *)
Definition users (l : list obs) : list nat := flat_map (fun o => match o with OUser n => [n] | _ => [] end) l.
Definition server_at (s : lnode) (i : nat) : option server := nth_error (g_servers (ln_mgr s)) i.

(** [arrives s i d m]: datagram [d], a complete frame of at most 1024 bytes denoting [m], arrives at
    running server [i]. *)
Definition arrives (s : lnode) (i : nat) (d : datagram) (m : msg) : Prop :=
  (exists v, server_at s i = Some v /\ s_alive v = true) /\
  (length (fst d) <= 1024)%nat /\ bytes_ok (fst d) /\ exists f, denotes (fst d) f /\ m = set_from (Some (snd d)) f.
(** [arrive_all s l ms]: all do. *)
Definition arrive_all (s : lnode) (l : list (nat * datagram)) (ms : list msg) : Prop :=
  Forall2 (fun x m => arrives s (fst x) (snd x) m) l ms.
(** Who must be told what. *)
Definition due (s : lnode) (l : list (nat * datagram)) (ms : list msg) : list (nat * msg) :=
  flat_map (fun x => match server_at s (fst (fst x)) with
                     | Some v => map (fun n => (n, snd x)) (users (s_obs v))
                     | None => []
                     end) (combine l ms).

(** What user observers hear of a sequence of arriving datagrams, exactly: a server reads the
    first 1024 bytes; if they do not begin with a frame it stays silent for ever. *)
Definition seen (d : datagram) : list Z := firstn 1024 (fst d).
Inductive hears (s : lnode) : list nat -> list (nat * datagram) -> list (nat * msg) -> Prop :=
| hears_end dead : hears s dead [] []
| hears_silent dead i d l out :
    In i dead \/ (forall v, server_at s i = Some v -> s_alive v = false) ->
    hears s dead l out -> hears s dead ((i, d) :: l) out
| hears_malformed dead i d l out v :
    ~ In i dead -> server_at s i = Some v -> s_alive v = true -> (~ exists f, denotes (seen d) f) ->
    hears s (i :: dead) l out -> hears s dead ((i, d) :: l) out
| hears_frame dead i d l out v f :
    ~ In i dead -> server_at s i = Some v -> s_alive v = true -> denotes (seen d) f ->
    hears s dead l out ->
    hears s dead ((i, d) :: l) (map (fun n => (n, set_from (Some (snd d)) f)) (users (s_obs v)) ++ out).
