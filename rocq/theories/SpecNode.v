(** Specifications for nodes, servers and transaction identifiers. *)
From Verif Require Import PyBase MsgM PropM ObjM DbM SpecWire SpecObj NodeM LocalM CtrlM.
From Coq Require Import Permutation.

(** ** Object tables *)
Definition add_run (ops : list (option obj)) (n : node) : node :=
  fold_left (fun n o => fst (node_add_object o n)) ops n.
(** The last object added under a code. *)
Fixpoint last_obj (code : Z) (ops : list (option obj)) : option obj :=
  match ops with
  | [] => None
  | x :: r => match last_obj code r with
              | Some o => Some o
              | None => match x with
                        | Some o => if o_code o =? code then Some o else None
                        | None => None
                        end
              end
  end.
(** First occurrences, in order. *)
Fixpoint firsts {A} (eqb : A -> A -> bool) (l : list A) : list A :=
  match l with
  | [] => []
  | x :: r => x :: filter (fun y => negb (eqb x y)) (firsts eqb r)
  end.
Definition added_codes (ops : list (option obj)) : list Z :=
  flat_map (fun x => match x with Some o => [o_code o] | None => [] end) ops.

(** ** Registration of observers *)
Definition register (l : list obs) : list obs := fold_left (fun acc o => fst (subj_add o acc)) l [].

(** User code that never raises. *)
Definition quiet (w : os) : Prop := forall tr ev, os_user w tr ev = Ok tt.

(** ** Start and stop *)
Definition socket := (bool * string)%type.
Definition opened (tr : trace) : list socket :=
  flat_map (fun e => match e with EvBind u i (Ok _) => [(u, i)] | _ => [] end) tr.
Definition closed (tr : trace) : list socket :=
  flat_map (fun e => match e with EvClose u i => [(u, i)] | _ => [] end) tr.
(** One running unicast and one running multicast server per address, each observed by [o]. *)
Definition running (o : list obs) (ifaddrs : list string) (l : list server) : Prop :=
  l = flat_map (fun i => [mksrv true i true true o; mksrv false i true true o]) ifaddrs.
Inductive life := LStart (ifaddrs : list string) | LStop.
Definition life_step (w : os) (st : lnode * trace) (op : life) : lnode * trace :=
  match op with
  | LStart l => fst (local_start w (snd st) (fst st) l)
  | LStop => fst (local_stop (snd st) (fst st))
  end.
Definition life_run (w : os) (ops : list life) (st : lnode * trace) : lnode * trace :=
  fold_left (life_step w) ops st.

(** The IPv4 addresses reported by the interfaces. *)
Definition reported (ifs : list (option (list (option string)))) : list string :=
  flat_map (fun x => match x with None => [] | Some l =>
    flat_map (fun y => match y with None => [] | Some ip => [ip] end) l end) ifs.
Definition non_loopback (l : list string) : list string :=
  filter (fun ip => negb (String.eqb ip "127.0.0.1")) l.

(** ** Transaction identifiers *)
Inductive sop := SSend (m : msg) (a : option addr) | SAnnounce (m : msg).
Definition sop_msg (op : sop) : msg := match op with SSend m _ => m | SAnnounce m => m end.
(** Sending messages one after the other: the TIDs the messages have afterwards. *)
Definition sop_step (w : os) (tr : trace) (g : manager) (op : sop) : manager * trace * msg :=
  match op with
  | SSend m a => let '(g', tr', m', _) := mgr_send w tr g m a in (g', tr', m')
  | SAnnounce m => let '(g', tr', m', _) := mgr_announce w tr g m in (g', tr', m')
  end.
Fixpoint sop_run (w : os) (tr : trace) (g : manager) (ops : list sop) : manager * trace * list Z :=
  match ops with
  | [] => (g, tr, [])
  | op :: r => let '(g1, tr1, m) := sop_step w tr g op in
               let '(g2, tr2, l) := sop_run w tr1 g1 r in (g2, tr2, m_TID m :: l)
  end.
(** The TIDs given to the messages that had none. *)
Fixpoint assigned (ops : list sop) (tids : list Z) : list Z :=
  match ops, tids with
  | op :: r, t :: ts => if m_TID (sop_msg op) =? 0 then t :: assigned r ts else assigned r ts
  | _, _ => []
  end.
