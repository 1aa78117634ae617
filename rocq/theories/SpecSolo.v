(** Specification for a controller that uses its own objects through the network (C126). *)
From Verif Require Import PyBase MsgM PropM ObjM SpecWire SpecReq NodeM LocalM CtrlM SpecNode SpecLocal SpecSrv SpecCtrl SpecEnd SpecSess.
From Verif Require Import SpecReq.

(** post_message of a controller at address [a] to a node that is itself: the request is sent, what
    reaches [a] arrives at its server [jd], what it then sends to [a] arrives at its server [jc], and
    post_message returns. *)
Definition solo_post {PS : PySet} (w : os) (jd jc : nat) (a : addr) (m : msg) (d : dest) (x : lnode * trace) : lnode * trace * option msg :=
  let '(s1, tr1, _, r) := post_begin w (snd x) (fst x) m d in
  match r with
  | Ok true =>
      let '(s2, tr2) := arrive w tr1 s1 jd a (reach a (since (snd x) tr1)) in
      let '(s3, tr3) := arrive w tr2 s2 jc a (reach a (since tr1 tr2)) in
      (s3, tr3, post_end s3)
  | _ => (s1, tr1, None)
  end.
Fixpoint solo_client {PS : PySet} (w : os) (jd jc : nat) (a : addr) (d : dest) (l : list (Z * call)) (x : lnode * trace) : lnode * trace * list (option msg) :=
  match l with
  | [] => (fst x, snd x, [])
  | (code, k) :: r => let '(s1, tr1, b) := solo_post w jd jc a (request code k) d x in
                      let '(s2, tr2, bs) := solo_client w jd jc a d r (s1, tr1) in (s2, tr2, b :: bs)
  end.
(** The messages the calls return, the first with TID [t]: from the node profile. *)
Fixpoint solo_replies (a : addr) (t : Z) (S : store) (l : list (Z * call)) : list (option msg) :=
  match l with
  | [] => []
  | (code, k) :: r =>
      option_map (fun '(e, ps, ss, gs) => mkmsg t 0x0EF001 0x0EF001 e ps ss gs (Some a) None) (store_reply S code k)
        :: solo_replies a (t mod 65535 + 1) (store_after S code k) r
  end.
(** The controller is online with both servers and has found itself. *)
Definition at_home (jd jc : nat) (a : addr) (s : lnode) : Prop :=
  online s jd /\ online s jc /\ has_found s (fst a) /\ 0 <= g_tid (ln_mgr s) <= 65535.
