(** Model of a node that is used by several threads: the receiving threads of its servers run
    LocalNode.message_received (/repo/uecho/local_node.py:81-104), threads of the user call
    LocalNode.add_object (local_node.py:41-44) and Object.set_property_data (object.py:247-252).

    Objects are references: positions in [r_heap].  The table of the node (node.py:23, 27) maps codes to references;
    a thread that has looked an object up keeps it although the table changes.  One step is
      - the look-up of line 89 and the tests of object.py:330-345, which use no shared data;
      - the treatment of one property of the request, as in ServeM;
      - the store of node.py:55;
      - the creation of the iterator of node.py:62 (it notes the size of the table);
      - one round of that loop: RuntimeError if the size has changed, else the next object (CPython,
        dictobject.c);
      - one store of NodeProfile._update_map_properties (node_profile.py:96-150, super_object.py:46-97):
        the data stored depend on the codes of the objects found by the loop and on the attributes of the
        profile's properties, which do not change;
      - one call of set_property_data.
    An exception ends a call of the user; the user goes on with the next one.  Every receiving thread
    treats one request; a thread that treats several is several threads scheduled one after the other.
    Observers of objects and the sending of the answer (see StopM) are not represented. *)
From Verif Require Import PyBase BytesM EsvM MsgM PropM ObjM DbM NodeM TidM ServeM.

Inductive ucall :=
| CAdd (i : nat)                          (* node.add_object(object i) *)
| CSet (i : nat) (c : Z) (d : list Z).    (* (object i).set_property_data(c, d) *)
Inductive ures := UBool (b : bool) | URaise (e : exn) | UChanged.
Inductive upc :=
| UNext                                               (* between two calls *)
| UIter                                               (* node.py:62, before the iterator is made *)
| URound (used pos : nat) (objs : list nat)           (* node.py:62-63 *)
| UPuts (puts : list (Z * res (list Z))).             (* the stores that remain *)
Inductive thr :=
| TUser (todo : list ucall) (p : upc) (outs : list ures)
| TReq (req : msg)                                    (* local_node.py:89 *)
| TServe (i : nat) (p : spc)                          (* in message_received of object i *)
| TNone.                                              (* no such object: lines 90-91 *)
Record rst := mkrst { r_heap : list obj; r_tab : list (Z * nat); r_prof : nat; r_thr : list thr }.

Section Run.
Context {PS : PySet}.

(** The data of a property map, super_object.py:51-75. *)
Definition map_bytes (prop_map : list Z) : res (list Z) :=
  match bytes_of (zlen prop_map :: prop_map) with
  | Err e => Err e
  | Ok b => if is_format1 (zlen prop_map) then Ok b
            else bytes_of (Z.of_nat PROPERTYMAP_FORMAT2_MAP_SIZE :: map2_encode prop_map)
  end.
(** The stores of _update_map_properties in their order: node_profile.py:106, 111, 113, 134, 138 and
    super_object.py:91-96. *)
Definition np_puts (codes : list Z) (o : obj) : list (Z * res (list Z)) :=
  let '(cnt, l) := np_instance_loop codes in
  let '(ccnt, cl) := np_class_loop codes in
  [(0xD3, Ok (from_int_n cnt 3)); (0xD5, Ok (from_int_n cnt 1 ++ l)); (0xD6, Ok (from_int_n cnt 1 ++ l));
   (0xD4, Ok (from_int_n ccnt 2)); (0xD7, Ok (from_int_n ccnt 1 ++ cl));
   (ANNO_PROPERTY_MAP, map_bytes (set_list (codes_where is_announce_required o)));
   (GET_PROPERTY_MAP, map_bytes (set_list (codes_where is_read_enabled o)));
   (SET_PROPERTY_MAP, map_bytes (set_list (codes_where is_write_enabled o)))].

Definition nobody : obj := new_object PNone.
Definition at_ref (h : list obj) (i : nat) : obj := nth i h nobody.

(** One step of a thread: the heap, the table, and the thread. *)
Definition estep (h : list obj) (tab : list (Z * nat)) (prof : nat) (t : thr) : list obj * list (Z * nat) * thr :=
  match t with
  | TUser todo p outs =>
      match p with
      | UNext =>
          match todo with
          | [] => (h, tab, t)
          | CAdd i :: todo => (h, zset (o_code (at_ref h i)) i tab, TUser todo UIter outs)
          | CSet i c d :: todo =>
              let '(o, r) := set_property_data c d (at_ref h i) in (put h i o, tab, TUser todo UNext (outs ++ [UBool r]))
          end
      | UIter => (h, tab, TUser todo (URound (length tab) 0 []) outs)
      | URound used pos objs =>
          if negb (Nat.eqb (length tab) used) then (h, tab, TUser todo UNext (outs ++ [UChanged]))
          else
            match nth_error tab pos with
            | None => (h, tab, TUser todo (UPuts (np_puts (map (fun i => o_code (at_ref h i)) objs) (at_ref h prof))) outs)
            | Some (_, i) => (h, tab, TUser todo (URound used (S pos) (objs ++ [i])) outs)
            end
      | UPuts [] => (h, tab, TUser todo UNext (outs ++ [UBool true]))
      | UPuts ((c, d) :: puts) =>
          if negb (has_property c (at_ref h prof)) then (h, tab, TUser todo UNext (outs ++ [UBool false]))
          else
            match d with
            | Err e => (h, tab, TUser todo UNext (outs ++ [URaise e]))
            | Ok d => (put h prof (store c d (at_ref h prof)), tab, TUser todo (UPuts puts) outs)
            end
      end
  | TReq req =>
      match zget (o_code (new_object (PInt (m_DEOJ req)))) tab with
      | None => (h, tab, TNone)
      | Some i => let '(o, p) := pstep (at_ref h i) (SBegin req) in (put h i o, tab, TServe i p)
      end
  | TServe i p => let '(o, p') := pstep (at_ref h i) p in (put h i o, tab, TServe i p')
  | TNone => (h, tab, TNone)
  end.
Definition rstep (s : rst) (i : nat) : rst :=
  match nth_error (r_thr s) i with
  | None => s
  | Some t => let '(h, tab, t') := estep (r_heap s) (r_tab s) (r_prof s) t in mkrst h tab (r_prof s) (put (r_thr s) i t')
  end.
(** A schedule names the thread that makes the next step. *)
Definition rrun (s : rst) (sched : list nat) : rst := fold_left rstep sched s.
End Run.
