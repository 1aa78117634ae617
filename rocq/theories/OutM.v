(** Model of what /repo/bin/uechopost.py, /repo/bin/uechosearch.py and /repo/bin/uechobench.py print;
    each string of a list is one call of print. *)
From Verif Require Import PyBase BytesM MsgM PropM ObjM DbM NodeM LocalM CtrlM BenchM LogM.

(** '%0wX' % z for z >= 0 (a negative number would get a sign; no code is negative). *)
Fixpoint hex_digits (fuel : nat) (z : Z) (acc : string) : string :=
  match fuel with
  | O => acc
  | S f => if z <? 16 then String (hex_digit z) acc else hex_digits f (z / 16) (String (hex_digit (z mod 16)) acc)
  end.
Fixpoint zeros (n : nat) : string := match n with O => "" | S k => String "0" (zeros k) end.
Definition pct_X (w : nat) (z : Z) : string :=
  let s := hex_digits (S (Z.to_nat (Z.log2 z))) z "" in (zeros (w - String.length s) ++ s)%string.
(** '%d' % n *)
Definition pct_d (n : nat) : string := str_int (Z.of_nat n).
(** msg += ... for every element of a list *)
Fixpoint join {A} (f : A -> string) (l : list A) : string := match l with [] => "" | x :: r => (f x ++ join f r)%string end.
(** enumerate(l, i) *)
Fixpoint enumerate {A} (i : nat) (l : list A) : list (nat * A) := match l with [] => [] | x :: r => (i, x) :: enumerate (S i) r end.

(** uechopost.py:58-62; None: from_addr is None and its index raises TypeError. *)
Definition post_lines (r : option msg) : option (list string) :=
  match r with
  | None => Some []
  | Some m =>
    match m_from m with
    | None => None
    | Some a => Some [(fst a ++ " " ++ pct_X 6 (m_SEOJ m) ++ " " ++ pct_X 2 (m_ESV m) ++ " " ++
                       join (fun p => pct_X 2 (p_code p) ++ " " ++ to_hex_upper (p_data p) ++ " ") (m_props m))%string]
    end
  end.

(** Without -v: uechosearch.py:53-57 and uechobench.py:46-51 (for each of the -n repetitions). *)
Definition list_line (n : node) : string :=
  (ljust 15 (node_ip n) ++ " " ++ join (fun '(j, o) => "[" ++ pct_d j ++ "] " ++ pct_X 6 (o_code o) ++ " ") (enumerate 0 (node_objects n)))%string.
Definition search_lines (c : ctl) : list string := map list_line (ctl_nodes c).
Definition bench_lines (number : Z) (c : ctl) : list string := concat (repeat (search_lines c) (Z.to_nat number)).

(** '(%s) ' % name if the name is not empty *)
Definition named_part (name : string) : string := match name with EmptyString => "" | _ => ("(" ++ name ++ ") ")%string end.
(** With -v, one property: uechosearch.py:80-97; [pname] is the field name of a property, which
    [PropM.oprop] leaves out, and [d] the data of the properties of the answer ([BenchM.tool_read]). *)
Definition prop_line (j k : nat) (p : oprop) (name : string) (d : list (list Z)) : string :=
  ("[" ++ pct_d j ++ "] [" ++ pct_d k ++ "] " ++ pct_X 2 (op_code p) ++ " " ++ named_part name ++ join (fun b => to_hex_upper b ++ " ") d)%string.
Definition obj_line (j : nat) (o : obj) : string :=
  ("[" ++ pct_d j ++ "] " ++ pct_X 6 (o_code o) ++ " " ++ named_part (o_name o))%string.
(** The loops over objects and properties; the answers [ds] are those of [BenchM.tool_reads], one for
    each property that is asked for, and are used up one after the other. *)
Fixpoint prop_lines (pname : oprop -> string) (j k : nat) (ps : list oprop) (ds : list (list (list Z))) : list string * list (list (list Z)) :=
  match ps with
  | [] => ([], ds)
  | p :: r =>
    if negb (is_read_required p) then prop_lines pname j (S k) r ds
    else match ds with
         | [] => ([], [])
         | d :: ds' => let '(ls, rest) := prop_lines pname j (S k) r ds' in (prop_line j k p (pname p) d :: ls, rest)
         end
  end.
Fixpoint obj_lines (pname : obj -> oprop -> string) (j : nat) (os : list obj) (ds : list (list (list Z))) : list string :=
  match os with
  | [] => []
  | o :: r => let '(ls, rest) := prop_lines (pname o) j 0 (dvals (o_props o)) ds in obj_line j o :: ls ++ obj_lines pname (S j) r rest
  end.
(** The rest of the first line of uechosearch, uechosearch.py:63-72. *)
Definition manufacturer_part (r : option msg) : string :=
  match r with
  | None => ""
  | Some m =>
    match m_props m with
    | [] => ""
    | p :: _ => match get_manufacturer_name (MABytes (p_data p)) with
                | Some s => ("(" ++ s ++ ")")%string
                | None => ("(" ++ to_hex_upper (p_data p) ++ ")")%string
                end
    end
  end.
(** One node, the [i]-th: uechobench.py:55-59 and uechosearch.py:60-74. *)
Definition node_lines (pname : obj -> oprop -> string) (i : nat) (n : node) (first : string) (ds : list (list (list Z))) : list string :=
  (if (0 <? i)%nat then [""%string] else []) ++ (ljust 15 (node_ip n) ++ " " ++ first)%string :: obj_lines pname 0 (node_objects n) ds.
Definition bench_node pname i n ds : list string := node_lines pname i n ""%string ds.
Definition search_node pname i n (man : option msg) ds : list string := node_lines pname i n (manufacturer_part man) ds.
