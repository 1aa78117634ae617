(** Specification for searches on a network that changes at any time (C114). *)
From Verif Require Import PyBase MsgM PropM ObjM SpecWire SpecReq NodeM LocalM CtrlM SpecNode SpecLocal SpecSrv SpecCtrl SpecEnd SpecDisc.

(** A controller, the datagrams of all its searches, the nodes, and what they have sent to the controller, with their addresses. *)
Record field := mkfield { f_ctl : site; f_mail : list (list Z); f_devs : list site; f_sent : list (list Z * addr) }.
(** The controller searches; datagram [i] of a search arrives at server [j] of node [k]; datagram [i]
    of those sent to the controller arrives at its server [j]; node [k] becomes another node with the
    devices [l] (it has got or lost devices, was started again, got another address, or was replaced). *)
Inductive happening := FSearch | FGo (k j i : nat) | FBack (j i : nat) | FTurn (k : nat) (d : site) (l : list Z).
Definition field_step {PS : PySet} (x : field) (e : happening) : field :=
  match e with
  | FSearch =>
      let c := f_ctl x in
      let '(s, tr, _) := ctl_search (t_os c) (t_tr c) (t_node c) in
      mkfield (mksite (t_os c) (t_addr c) s tr (t_from c)) (f_mail x ++ reach ("224.0.23.0"%string, 3610) (since (t_tr c) tr)) (f_devs x) (f_sent x)
  | FGo k j i =>
      match nth_error (f_devs x) k, nth_error (f_mail x) i with
      | Some d, Some b =>
          let d' := hears d j b (t_addr (f_ctl x)) in
          mkfield (f_ctl x) (f_mail x) (upd (f_devs x) k d') (f_sent x ++ map (fun y => (y, t_addr d)) (reach (t_addr (f_ctl x)) (since (t_tr d) (t_tr d'))))
      | _, _ => x
      end
  | FBack j i =>
      match nth_error (f_sent x) i with
      | Some (b, a) => mkfield (hears (f_ctl x) j b a) (f_mail x) (f_devs x) (f_sent x)
      | None => x
      end
  | FTurn k d _ => mkfield (f_ctl x) (f_mail x) (upd (f_devs x) k d) (f_sent x)
  end.
Definition field_run {PS : PySet} (l : list happening) (x : field) : field := fold_left field_step l x.

(** What the controller should show: the number of search datagrams, address, devices and number of
    servers of the nodes, the answers, and the answer heard last from each address. *)
Record view := mkview { v_mail : nat; v_nodes : list (addr * list Z * nat); v_answers : list (addr * list Z); v_last : string -> option (addr * list Z) }.
Definition view_step (ifs servers : nat) (v : view) (e : happening) : view :=
  match e with
  | FSearch => mkview (v_mail v + ifs) (v_nodes v) (v_answers v) (v_last v)
  | FGo k j i =>
      match nth_error (v_nodes v) k with
      | Some (a, l, n) => if (i <? v_mail v)%nat && (j <? n)%nat && (zlen l <=? 84)
                          then mkview (v_mail v) (v_nodes v) (v_answers v ++ [(a, l)]) (v_last v) else v
      | None => v
      end
  | FBack j i =>
      match nth_error (v_answers v) i with
      | Some (a, l) => if (j <? servers)%nat then mkview (v_mail v) (v_nodes v) (v_answers v) (fun ip => if String.eqb ip (fst a) then Some (a, l) else v_last v ip) else v
      | None => v
      end
  | FTurn k d l => mkview (v_mail v) (upd (v_nodes v) k (t_addr d, l, servers_of (t_node d))) (v_answers v) (v_last v)
  end.
Definition view_run (ifs servers : nat) (l : list happening) (v : view) : view := fold_left (view_step ifs servers) l v.
