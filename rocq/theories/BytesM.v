(** Model of /repo/uecho/util/bytes.py and /repo/uecho/util/hex.py. *)
From Verif Require Import PyBase.

(** Body of Bytes.from_int for a non-negative size, uecho/util/bytes.py:25-29.  Used
    directly where the code calls Bytes.from_int with a constant size
    (message.py:165-167, node_profile.py:103-138). *)
Definition from_int_n (val : Z) (n : nat) : list Z :=
  fold_left
    (fun buf k => upd buf (n - 1 - k) (Z.land (Z.shiftr val (Z.of_nat k * 8)) 255))
    (seq 0 n) (repeat 0 n).

(** Bytes.from_int, uecho/util/bytes.py:24-29.
    [bytearray(n)] raises ValueError for a negative size (line 25). *)
Definition from_int (val bytes_size : Z) : res (list Z) :=
  if bytes_size <? 0 then Err ValueError
  else Ok (from_int_n val (Z.to_nat bytes_size)).

(** Bytes.to_int, uecho/util/bytes.py:32-38.  The index is always in range. *)
Definition to_int (byte_buf : list Z) : Z :=
  let bytes_size := length byte_buf in
  fold_left
    (fun val n => val + Z.shiftl (nth (bytes_size - 1 - n) byte_buf 0) (Z.of_nat n * 8))
    (seq 0 bytes_size) 0.

(** Hexadecimal digit value, as accepted by bytes.fromhex. *)
Definition hex_val (c : ascii) : option Z :=
  let n := Z.of_N (N_of_ascii c) in
  if (48 <=? n) && (n <=? 57) then Some (n - 48)
  else if (65 <=? n) && (n <=? 70) then Some (n - 55)
  else if (97 <=? n) && (n <=? 102) then Some (n - 87)
  else None.

(** ASCII white space skipped by bytes.fromhex between bytes (Python >= 3.7;
    Python 3.6 skips the blank only): blank, \t \n \v \f \r. *)
Definition is_space (c : ascii) : bool :=
  let n := Z.of_N (N_of_ascii c) in
  (n =? 32) || ((9 <=? n) && (n <=? 13)).

(** Bytes.from_string = bytes.fromhex, uecho/util/bytes.py:41-42.
    Characters are ASCII / Latin-1; every other character raises ValueError as well. *)
Fixpoint from_string (s : string) : res (list Z) :=
  match s with
  | EmptyString => Ok []
  | String c s' =>
      if is_space c then from_string s'
      else
        match s' with
        | EmptyString => Err ValueError
        | String d s'' =>
            match hex_val c, hex_val d with
            | Some h, Some l => r <- from_string s'';; Ok (16 * h + l :: r)
            | _, _ => Err ValueError
            end
        end
  end.

(** One upper-case hexadecimal digit. *)
Definition hex_digit (d : Z) : ascii :=
  ascii_of_N (Z.to_N (if d <? 10 then d + 48 else d + 55)).

(** bytes.hex().upper(), used by Message.to_string, uecho/protocol/message.py:178-179. *)
Fixpoint to_hex_upper (b : list Z) : string :=
  match b with
  | [] => EmptyString
  | x :: r => String (hex_digit (x / 16)) (String (hex_digit (x mod 16)) (to_hex_upper r))
  end.

(** Hex.from_string for a str argument, uecho/util/hex.py:21-24
    (any other argument: RestM.hex_from_any). *)
Definition hex_from_string (s : string) : res Z :=
  b <- from_string s;; Ok (to_int b).
