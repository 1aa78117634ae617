(** The controller program of the documentation (/repo/doc/controller_overview.md:67-86) that sends several
    requests to the node it has taken from ctrl.nodes, "node = ctrl.nodes[0]". *)
From Verif Require Import PyBase MsgM PropM ObjM NodeM LocalM CtrlM OutM GuideM.
From Verif Require Import SpecEnd.

(** post_message and the printing of its result for each request (DEOJ, property code, data), one after the
    other; the lines printed for each. *)
Fixpoint guide_posts {PS : PySet} (wc wd : os) (jc jd : nat) (ac an : addr) (n : node) (l : list (Z * Z * list Z)) (x : world) : world * list (list string) :=
  match l with
  | [] => (x, [])
  | (deoj, c, d) :: r =>
      let '(x1, a) := transact wc wd jc jd ac an (guide_request deoj c d) (DNode n) x in
      let '(x2, ls) := guide_posts wc wd jc jd ac an n r x1 in
      (x2, guide_print a :: ls)
  end.
