(** Specification for values that a device announces (C124), on nodes as in SpecDisc.v. *)
From Verif Require Import PyBase MsgM PropM ObjM SpecWire SpecReq NodeM LocalM CtrlM SpecNode SpecLocal SpecSrv SpecCtrl SpecEnd SpecDisc.

(** The message an application announces: a notification from its object [code] to [deoj]. *)
Definition news (code deoj : Z) (ps : list prop) : msg := mkmsg 0 code deoj 0x73 ps [] [] None None.
Definition news_ok (code deoj : Z) (ps : list prop) : Prop :=
  0 <= code < 2 ^ 24 /\ 0 <= deoj < 2 ^ 24 /\ fits_list ps /\ Forall data_ok ps /\ (length (wire (news code deoj ps)) <= 1024)%nat.
(** The first property is not an instance list. *)
Definition unlisted (ps : list prop) : Prop := match ps with p :: _ => p_code p <> 0xD5 /\ p_code p <> 0xD6 | [] => True end.
(** The message in the datagrams. *)
Definition as_sent (s : lnode) (code deoj : Z) (ps : list prop) : msg :=
  mkmsg (g_tid (ln_mgr s) mod 65535 + 1) code deoj 0x73 ps [] [] None None.

(** The network delivers the datagrams [mail] from [a]: (k, j, i) brings number [i] to server [j] of node [k].  Nothing is
    said about which are delivered, in which order and how often. *)
Definition net_step {PS : PySet} (a : addr) (mail : list (list Z)) (sites : list site) (e : nat * nat * nat) : list site :=
  let '(k, j, i) := e in
  match nth_error sites k, nth_error mail i with
  | Some d, Some b => upd sites k (hears d j b a)
  | _, _ => sites
  end.
Definition net_run {PS : PySet} (a : addr) (mail : list (list Z)) (sched : list (nat * nat * nat)) (sites : list site) : list site :=
  fold_left (net_step a mail) sched sites.
(** How often a server of node [k], which has [n], is brought one of [mail] datagrams. *)
Definition brought (mail n k : nat) (sched : list (nat * nat * nat)) : nat :=
  length (filter (fun '(k', j, i) => (k' =? k)%nat && (j <? n)%nat && (i <? mail)%nat) sched).
(** A controller all of whose servers run. *)
Definition watches (d : site) (c : ctl) : Prop := quiet (t_os d) /\ listens (t_node d) /\ ln_ctl (t_node d) = Some c.
