(** Model of the lamp of the example light, /repo/examples/device/monolight/monolight-sense.py (and of the lines
    that monolight.py and monolight-sense.py print), first for messages one after the other, then for requests that
    several threads serve at the same time.  The property table and the handler are those of MonoM.v, the loops
    of the library those of AskM.v, with a handler that knows how often the lamp was set before. *)
From Verif Require Import PyBase BytesM MsgM PropM ObjM MonoM AskM.

(** The questions that lead to on() or off(), monolight-sense.py:57-67. *)
Definition switches (q : question) : option Z :=
  match q with
  | QWrite p (x :: _) =>
      if (op_code p =? OPERATION_STATUS) && (zlen (op_data p) =? 1) && ((x =? STATUS_ON) || (x =? STATUS_OFF)) then Some x else None
  | _ => None
  end.
Definition switched (qs : list question) : list Z := flat_map (fun q => match switches q with Some x => [x] | None => [] end) qs.

(** self.sense.clear([0xFF, 0xFF, 0xFF]) and clear([0x00, 0x00, 0x00]), monolight-sense.py:48-52. *)
Definition colour (v : Z) : list Z := if v =? STATUS_ON then [0xFF; 0xFF; 0xFF] else [0; 0; 0].
(** print("ON") and print("OFF"), monolight-sense.py:41 and 46, monolight.py:39 and 43. *)
Definition word (v : Z) : string := if v =? STATUS_ON then "ON" else "OFF".

(** MonoLight.property_read_requested and property_write_requested, monolight-sense.py:54-68; [hw n]: the [n]-th call
    of clear works, otherwise it raises (OSError, the driver), after the status was set and before anything is printed. *)
Definition sense_asker (hw : nat -> bool) (k : nat) : asker := fun hist ps q =>
  match q with
  | QRead None => (ps, Err AttributeError)
  | QRead (Some p) => (ps, Ok (match zget (op_code p) ps with None => false | Some q => is_read_enabled q end))
  | QWrite p data =>
      if op_code p =? OPERATION_STATUS then
        if negb (zlen (op_data p) =? 1) then (ps, Ok false)
        else
          match data with
          | [] => (ps, Err IndexError)
          | x :: _ =>
              if negb (x =? STATUS_ON) && negb (x =? STATUS_OFF) then (ps, Ok false)
              else (set_status x ps, if hw (k + length (switched hist))%nat then Ok true else Err OSError)
          end
      else (ps, Ok (match zget (op_code p) ps with None => false | Some q => is_write_enabled q end))
  end.

(** The properties of the light, the lamp, the lines printed so far and the number of calls of clear. *)
Record sense := mksense { z_props : props; z_lamp : list Z; z_said : list string; z_clears : nat }.
(** The calls of on() and off() one after the other. *)
Fixpoint glow (hw : nat -> bool) (k : nat) (lamp : list Z) (said : list string) (vs : list Z) : list Z * list string :=
  match vs with
  | [] => (lamp, said)
  | v :: r => if hw k then glow hw (S k) (colour v) (said ++ [word v]) r else glow hw (S k) lamp said r
  end.
(** on() and off() of the program (start, stop: monolight-sense.py:80-86), and messages that arrive. *)
Inductive sense_event := SOn | SOff | SMsg (m : msg).
Definition sense_step (hw : nat -> bool) (s : sense) (e : sense_event) : sense * res (option msg) :=
  let switch v :=
    let '(lamp, said) := glow hw (z_clears s) (z_lamp s) (z_said s) [v] in
    (mksense (set_status v (z_props s)) lamp said (S (z_clears s)), if hw (z_clears s) then Ok None else Err OSError) in
  match e with
  | SOn => switch STATUS_ON
  | SOff => switch STATUS_OFF
  | SMsg m =>
      let '(a, r) := a_received (sense_asker hw (z_clears s)) (mkast (z_props s) []) m in
      let vs := switched (a_asked a) in
      let '(lamp, said) := glow hw (z_clears s) (z_lamp s) (z_said s) vs in
      (mksense (a_props a) lamp said (z_clears s + length vs)%nat, r)
  end.
Fixpoint sense_run (hw : nat -> bool) (s : sense) (es : list sense_event) : sense * list (res (option msg)) :=
  match es with
  | [] => (s, [])
  | e :: r => let '(s1, a) := sense_step hw s e in let '(s2, l) := sense_run hw s1 r in (s2, a :: l)
  end.

(** ** Threads
    The servers of the node are threads of their own (two for each interface, frame/manager.py:74-93), and start
    and stop are called by the main thread.  Each worker has a list of things to do: the data of a write request
    of the operation status, on() or off() called by the program, and the end of stop, after which no
    server takes a request.  A request is served in four steps: the checks of
    property_write_requested (lines 58-62), set_property_integer in on() or off() (39 or 44),
    clear (40 or 45, with the print), and obj_prop.data = data in the library (object.py:378). *)
Inductive item := IReq (w : list Z) | ISwitch (v : Z) | IClose.
Inductive place := PIdle | PSet (v : Z) (w : option (list Z)) | PLed (v : Z) (w : option (list Z)) | PStore (w : list Z) | PDead.
Record worker := mkwork { k_items : list item; k_place : place; k_ans : list bool }.
Record hall := mkhall { q_status : list Z; q_lamp : list Z; q_open : bool; q_work : list worker }.
Definition put_work (i : nat) (k : worker) (l : list worker) : list worker := firstn i l ++ k :: skipn (S i) l.

(** One step of worker [i]. *)
Definition hall_step (h : hall) (i : nat) : hall :=
  match nth_error (q_work h) i with
  | None => h
  | Some k =>
      let goes st lamp op k' := mkhall st lamp op (put_work i k' (q_work h)) in
      match k_place k with
      | PDead => h
      | PSet v w => goes [v] (q_lamp h) (q_open h) (mkwork (k_items k) (PLed v w) (k_ans k))
      | PLed v w =>
          goes (q_status h) (colour v) (q_open h)
            (mkwork (k_items k) (match w with Some w => PStore w | None => PIdle end) (k_ans k))
      | PStore w => goes w (q_lamp h) (q_open h) (mkwork (k_items k) PIdle (k_ans k ++ [true]))
      | PIdle =>
          match k_items k with
          | [] => h
          | IClose :: r => goes (q_status h) (q_lamp h) false (mkwork r PIdle (k_ans k))
          | ISwitch v :: r => goes (q_status h) (q_lamp h) (q_open h) (mkwork r (PSet v None) (k_ans k))
          | IReq w :: r =>
              if negb (q_open h) then h
              else if negb (zlen (q_status h) =? 1) then goes (q_status h) (q_lamp h) true (mkwork r PIdle (k_ans k ++ [false]))
              else
                match w with
                | [] => goes (q_status h) (q_lamp h) true (mkwork r PDead (k_ans k))
                | x :: _ =>
                    if (x =? STATUS_ON) || (x =? STATUS_OFF) then goes (q_status h) (q_lamp h) true (mkwork r (PSet x (Some w)) (k_ans k))
                    else goes (q_status h) (q_lamp h) true (mkwork r PIdle (k_ans k ++ [false]))
                end
          end
      end
  end.
Definition hall_run (h : hall) (sched : list nat) : hall := fold_left hall_step sched h.
