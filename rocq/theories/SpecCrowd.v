(** Specification for a network on which several controllers search (C125), with the sites of SpecDisc.v. *)
From Verif Require Import PyBase MsgM PropM ObjM SpecWire SpecReq NodeM LocalM CtrlM SpecNode SpecLocal SpecSrv SpecCtrl SpecEnd SpecDisc SpecGroup.

(** A datagram for the address [to] goes to a site that has this address, and to all for that of the group. *)
Definition for_site (to : addr) (d : site) : bool := addr_eqb to ("224.0.23.0"%string, 3610%Z) || addr_eqb to (t_addr d).
(** The controller at site [k] searches, or the network brings datagram number [n] of those that site
    [i] has sent to server [j] of site [k].  Nothing is said about when, in which order and how often. *)
Inductive stir := Ask (k : nat) | Pass (i n k j : nat).
Definition crowd_step {PS : PySet} (x : list site) (e : stir) : list site :=
  match e with
  | Ask k =>
      match nth_error x k with
      | Some d => match ln_ctl (t_node d) with
                  | Some _ => let '(s, tr, _) := ctl_search (t_os d) (t_tr d) (t_node d) in upd x k (mksite (t_os d) (t_addr d) s tr (t_from d))
                  | None => x
                  end
      | None => x
      end
  | Pass i n k j =>
      match nth_error x i, nth_error x k with
      | Some p, Some d => match nth_error (outbox p) n with
                          | Some (b, to) => if for_site to d then upd x k (hears d j b (t_addr p)) else x
                          | None => x
                          end
      | _, _ => x
      end
  end.
Definition crowd_run {PS : PySet} (sched : list stir) (x : list site) : list site := fold_left crowd_step sched x.

(** Nodes with up to 84 devices and different addresses; no controller has found a node yet. *)
Definition crowd {PS : PySet} (sites : list site) (ls : list (list Z)) : Prop :=
  Forall2 hosts sites ls /\ NoDup (map (fun d => fst (t_addr d)) sites) /\ Forall (fun l => (zlen l <= 84)%Z) ls /\
  Forall (fun d => t_addr d <> ("224.0.23.0"%string, 3610%Z)) sites /\
  Forall (fun d => (0 <= g_tid (ln_mgr (t_node d)) <= 65535)%Z /\ forall c, ln_ctl (t_node d) = Some c -> c_found c = []) sites.
(** A datagram from site [i] for site [k] alone has arrived there. *)
Definition told {PS : PySet} (sites : list site) (i k : nat) (sched : list stir) : Prop :=
  exists before n j after p d b, sched = before ++ Pass i n k j :: after /\
  nth_error (crowd_run before sites) i = Some p /\ nth_error sites k = Some d /\
  (j < servers_of (t_node d))%nat /\ nth_error (outbox p) n = Some (b, t_addr d).
