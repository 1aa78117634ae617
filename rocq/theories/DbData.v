(** Data transcribed mechanically from the text of /repo/uecho/std/objects_scsl.py,
    /repo/uecho/std/objects_mra.py and /repo/uecho/std/manufacturers.py.
    An entry (name, group, class, rows) stands for the statements
      obj = Object(name, group, class)
      obj.add_property(Property(code, _, _, _, get, set, anno))   (one per row)
      __std_..._objects[(group, class)] = obj
    in the source order; property names, types and sizes are dropped.  In both files every
    key equals the constructor's (group, class).  Each entry cites its source lines. *)
From Verif Require Import PyBase.
Local Open Scope string_scope.

(** The access rule texts that occur in the tables. *)
Definition r_o : string := "optional".
Definition r_n : string := "-".
Definition r_na : string := "notApplicable".
Definition r_m : string := "mandatory".
Definition r_r : string := "required".
Definition r_rc : string := "required_c".
Definition r_ro : string := "required_o".
Definition r_e : string := "".

(** A table row: property code, get rule, set rule, anno rule. *)
Definition row := (Z * (string * string * string))%type.
Definition std_entry := (string * Z * Z * list row)%type.

(** uecho/std/objects_scsl.py:31-1271. *)
Definition scsl_table : list std_entry := [
  (* objects_scsl.py:31-36 *)
  ("Gas leak sensor", 0x00, 0x01, [
    (0x80, (r_m, r_o, r_m));
    (0xB0, (r_o, r_o, r_n));
    (0xB1, (r_m, r_n, r_m));
    (0xBF, (r_n, r_o, r_n))]);
  (* objects_scsl.py:39-44 *)
  ("Crime prevention sensor", 0x00, 0x02, [
    (0x80, (r_m, r_o, r_m));
    (0xB0, (r_o, r_o, r_n));
    (0xB1, (r_m, r_n, r_m));
    (0xBF, (r_n, r_o, r_n))]);
  (* objects_scsl.py:47-51 *)
  ("Emergency button", 0x00, 0x03, [
    (0x80, (r_m, r_o, r_m));
    (0xB1, (r_m, r_n, r_m));
    (0xBF, (r_n, r_o, r_n))]);
  (* objects_scsl.py:54-59 *)
  ("First-aid sensor", 0x00, 0x04, [
    (0x80, (r_m, r_o, r_m));
    (0xB0, (r_o, r_o, r_n));
    (0xB1, (r_m, r_n, r_m));
    (0xBF, (r_n, r_o, r_n))]);
  (* objects_scsl.py:62-67 *)
  ("Earthquake sensor", 0x00, 0x05, [
    (0x80, (r_m, r_o, r_m));
    (0xB0, (r_o, r_o, r_n));
    (0xB1, (r_m, r_n, r_m));
    (0xBF, (r_n, r_o, r_n))]);
  (* objects_scsl.py:70-75 *)
  ("Electric leak sensor", 0x00, 0x06, [
    (0x80, (r_m, r_o, r_m));
    (0xB0, (r_o, r_o, r_n));
    (0xB1, (r_m, r_n, r_m));
    (0xBF, (r_n, r_o, r_n))]);
  (* objects_scsl.py:78-82 *)
  ("Human detection sensor", 0x00, 0x07, [
    (0x80, (r_m, r_o, r_m));
    (0xB0, (r_o, r_o, r_n));
    (0xB1, (r_m, r_n, r_m))]);
  (* objects_scsl.py:85-90 *)
  ("Visitor sensor", 0x00, 0x08, [
    (0x80, (r_m, r_o, r_m));
    (0xB0, (r_o, r_o, r_n));
    (0xB1, (r_m, r_n, r_m));
    (0xBE, (r_o, r_o, r_n))]);
  (* objects_scsl.py:93-98 *)
  ("Call sensor", 0x00, 0x09, [
    (0x80, (r_m, r_o, r_m));
    (0xB0, (r_o, r_o, r_n));
    (0xB1, (r_m, r_n, r_m));
    (0xBE, (r_o, r_o, r_n))]);
  (* objects_scsl.py:101-105 *)
  ("Condensation sensor", 0x00, 0x0A, [
    (0x80, (r_m, r_o, r_m));
    (0xB0, (r_o, r_o, r_n));
    (0xB1, (r_m, r_n, r_m))]);
  (* objects_scsl.py:108-112 *)
  ("Air pollution sensor", 0x00, 0x0B, [
    (0x80, (r_m, r_o, r_m));
    (0xB0, (r_o, r_o, r_n));
    (0xB1, (r_m, r_n, r_m))]);
  (* objects_scsl.py:115-118 *)
  ("Oxygen sensor", 0x00, 0x0C, [
    (0x80, (r_m, r_o, r_m));
    (0xE0, (r_m, r_n, r_n))]);
  (* objects_scsl.py:121-125 *)
  ("Illuminance sensor", 0x00, 0x0D, [
    (0x80, (r_m, r_o, r_m));
    (0xE0, (r_m, r_n, r_n));
    (0xE1, (r_m, r_n, r_n))]);
  (* objects_scsl.py:128-133 *)
  ("Sound sensor", 0x00, 0x0E, [
    (0x80, (r_m, r_o, r_m));
    (0xB0, (r_o, r_o, r_n));
    (0xB1, (r_m, r_n, r_m));
    (0xBE, (r_o, r_o, r_n))]);
  (* objects_scsl.py:136-140 *)
  ("Mailing sensor", 0x00, 0x0F, [
    (0x80, (r_m, r_o, r_m));
    (0xB0, (r_o, r_o, r_n));
    (0xB1, (r_m, r_n, r_m))]);
  (* objects_scsl.py:143-147 *)
  ("Weight sensor", 0x00, 0x10, [
    (0x80, (r_m, r_o, r_m));
    (0xB0, (r_o, r_o, r_n));
    (0xB1, (r_m, r_n, r_m))]);
  (* objects_scsl.py:150-153 *)
  ("Temperature sensor", 0x00, 0x11, [
    (0x80, (r_m, r_o, r_m));
    (0xE0, (r_m, r_n, r_n))]);
  (* objects_scsl.py:156-159 *)
  ("Humidity sensor", 0x00, 0x12, [
    (0x80, (r_m, r_o, r_m));
    (0xE0, (r_m, r_n, r_n))]);
  (* objects_scsl.py:162-166 *)
  ("Rain sensor", 0x00, 0x13, [
    (0x80, (r_m, r_o, r_m));
    (0xB0, (r_o, r_o, r_n));
    (0xB1, (r_m, r_n, r_m))]);
  (* objects_scsl.py:169-174 *)
  ("Water level sensor", 0x00, 0x14, [
    (0x80, (r_m, r_o, r_m));
    (0xB0, (r_o, r_n, r_n));
    (0xB1, (r_o, r_n, r_m));
    (0xE0, (r_m, r_n, r_n))]);
  (* objects_scsl.py:177-182 *)
  ("Bath water level sensor", 0x00, 0x15, [
    (0x80, (r_m, r_o, r_m));
    (0xB0, (r_o, r_n, r_n));
    (0xB1, (r_o, r_n, r_m));
    (0xE0, (r_m, r_n, r_n))]);
  (* objects_scsl.py:185-189 *)
  ("Bath heating status sensor", 0x00, 0x16, [
    (0x80, (r_m, r_o, r_m));
    (0xB0, (r_o, r_o, r_n));
    (0xB1, (r_m, r_n, r_m))]);
  (* objects_scsl.py:192-196 *)
  ("Water leak sensor", 0x00, 0x17, [
    (0x80, (r_m, r_o, r_m));
    (0xB0, (r_o, r_o, r_n));
    (0xB1, (r_m, r_n, r_m))]);
  (* objects_scsl.py:199-203 *)
  ("Water overflow sensor", 0x00, 0x18, [
    (0x80, (r_m, r_o, r_m));
    (0xB0, (r_o, r_o, r_n));
    (0xB1, (r_m, r_n, r_m))]);
  (* objects_scsl.py:206-211 *)
  ("Fire sensor", 0x00, 0x19, [
    (0x80, (r_m, r_o, r_m));
    (0xB0, (r_o, r_o, r_n));
    (0xB1, (r_m, r_n, r_m));
    (0xBF, (r_n, r_o, r_n))]);
  (* objects_scsl.py:214-218 *)
  ("Cigarette smoke sensor", 0x00, 0x1A, [
    (0x80, (r_m, r_o, r_m));
    (0xB0, (r_o, r_o, r_n));
    (0xB1, (r_m, r_n, r_m))]);
  (* objects_scsl.py:221-224 *)
  ("CO2 sensor", 0x00, 0x1B, [
    (0x80, (r_m, r_o, r_m));
    (0xE0, (r_m, r_n, r_n))]);
  (* objects_scsl.py:227-232 *)
  ("Gas sensor", 0x00, 0x1C, [
    (0x80, (r_m, r_o, r_m));
    (0xB0, (r_o, r_o, r_n));
    (0xB1, (r_o, r_n, r_m));
    (0xE0, (r_m, r_n, r_n))]);
  (* objects_scsl.py:235-240 *)
  ("VOC sensor", 0x00, 0x1D, [
    (0x80, (r_m, r_o, r_m));
    (0xB0, (r_o, r_o, r_n));
    (0xB1, (r_o, r_n, r_m));
    (0xE0, (r_m, r_n, r_n))]);
  (* objects_scsl.py:243-246 *)
  ("Differential pressure sensor", 0x00, 0x1E, [
    (0x80, (r_m, r_o, r_m));
    (0xE0, (r_m, r_n, r_n))]);
  (* objects_scsl.py:249-253 *)
  ("Air speed sensor", 0x00, 0x1F, [
    (0x80, (r_m, r_o, r_m));
    (0xE0, (r_m, r_n, r_n));
    (0xE1, (r_o, r_n, r_n))]);
  (* objects_scsl.py:256-261 *)
  ("Odor sensor", 0x00, 0x20, [
    (0x80, (r_m, r_o, r_m));
    (0xB0, (r_o, r_o, r_n));
    (0xB1, (r_o, r_n, r_n));
    (0xE0, (r_m, r_n, r_n))]);
  (* objects_scsl.py:264-269 *)
  ("Flame sensor", 0x00, 0x21, [
    (0x80, (r_m, r_o, r_m));
    (0xB0, (r_o, r_o, r_n));
    (0xB1, (r_m, r_n, r_m));
    (0xBF, (r_n, r_o, r_n))]);
  (* objects_scsl.py:272-280 *)
  ("Electric energy sensor", 0x00, 0x22, [
    (0x80, (r_m, r_o, r_m));
    (0xE0, (r_m, r_n, r_n));
    (0xE1, (r_o, r_n, r_n));
    (0xE2, (r_o, r_n, r_n));
    (0xE3, (r_o, r_n, r_n));
    (0xE4, (r_o, r_n, r_n));
    (0xE5, (r_o, r_n, r_n))]);
  (* objects_scsl.py:283-288 *)
  ("Current value sensor", 0x00, 0x23, [
    (0x80, (r_m, r_o, r_m));
    (0xE0, (r_m, r_n, r_n));
    (0xE1, (r_o, r_n, r_n));
    (0xE2, (r_m, r_n, r_n))]);
  (* objects_scsl.py:291-295 *)
  ("Water flow rate sensor", 0x00, 0x25, [
    (0x80, (r_m, r_o, r_m));
    (0xE0, (r_o, r_n, r_n));
    (0xE2, (r_m, r_n, r_n))]);
  (* objects_scsl.py:298-305 *)
  ("Micromotion sensor", 0x00, 0x26, [
    (0x80, (r_m, r_o, r_m));
    (0xB0, (r_o, r_o, r_n));
    (0xB1, (r_m, r_n, r_m));
    (0xB2, (r_o, r_o, r_n));
    (0xBC, (r_o, r_o, r_n));
    (0xBD, (r_o, r_o, r_n))]);
  (* objects_scsl.py:308-313 *)
  ("Passage sensor", 0x00, 0x27, [
    (0x80, (r_m, r_o, r_m));
    (0xB0, (r_o, r_o, r_n));
    (0xBE, (r_o, r_o, r_n));
    (0xE0, (r_m, r_n, r_m))]);
  (* objects_scsl.py:316-320 *)
  ("Bed presence sensor", 0x00, 0x28, [
    (0x80, (r_m, r_o, r_m));
    (0xB0, (r_o, r_o, r_n));
    (0xB1, (r_m, r_n, r_m))]);
  (* objects_scsl.py:323-328 *)
  ("Open/close sensor", 0x00, 0x29, [
    (0x80, (r_m, r_o, r_m));
    (0xE0, (r_m, r_n, r_n));
    (0xB0, (r_o, r_o, r_n));
    (0xB1, (r_m, r_n, r_m))]);
  (* objects_scsl.py:331-337 *)
  ("Activity amount sensor", 0x00, 0x2A, [
    (0x80, (r_m, r_o, r_m));
    (0xE0, (r_m, r_n, r_n));
    (0xE1, (r_o, r_n, r_n));
    (0xE2, (r_m, r_n, r_n));
    (0xE3, (r_o, r_n, r_n))]);
  (* objects_scsl.py:340-346 *)
  ("Human body location sensor", 0x00, 0x2B, [
    (0x80, (r_m, r_o, r_m));
    (0xE0, (r_m, r_n, r_n));
    (0xE1, (r_o, r_n, r_n));
    (0xE2, (r_m, r_n, r_n));
    (0xE3, (r_o, r_n, r_n))]);
  (* objects_scsl.py:349-353 *)
  ("Snow sensor", 0x00, 0x2C, [
    (0x80, (r_m, r_o, r_m));
    (0xB0, (r_o, r_o, r_n));
    (0xB1, (r_m, r_n, r_m))]);
  (* objects_scsl.py:356-401 *)
  ("Home air conditioner", 0x01, 0x30, [
    (0x80, (r_m, r_m, r_m));
    (0xB0, (r_m, r_m, r_m));
    (0xB1, (r_o, r_o, r_n));
    (0xB2, (r_o, r_o, r_n));
    (0xB3, (r_m, r_m, r_n));
    (0xB4, (r_o, r_o, r_n));
    (0xB5, (r_o, r_o, r_n));
    (0xB6, (r_o, r_o, r_n));
    (0xB7, (r_o, r_o, r_n));
    (0xB8, (r_o, r_n, r_n));
    (0xB9, (r_o, r_n, r_n));
    (0xBA, (r_o, r_n, r_n));
    (0xBB, (r_o, r_n, r_n));
    (0xBC, (r_o, r_n, r_n));
    (0xBD, (r_o, r_n, r_n));
    (0xBE, (r_o, r_n, r_n));
    (0xBF, (r_o, r_o, r_n));
    (0xA0, (r_o, r_o, r_n));
    (0xA1, (r_o, r_o, r_n));
    (0xA3, (r_o, r_o, r_n));
    (0xA4, (r_o, r_o, r_n));
    (0xA5, (r_o, r_o, r_n));
    (0xAA, (r_o, r_n, r_n));
    (0xAB, (r_o, r_n, r_n));
    (0xC0, (r_o, r_o, r_n));
    (0xC1, (r_o, r_o, r_n));
    (0xC2, (r_o, r_o, r_n));
    (0xC4, (r_o, r_o, r_n));
    (0xC6, (r_o, r_n, r_n));
    (0xC7, (r_o, r_o, r_n));
    (0xC8, (r_o, r_n, r_n));
    (0xC9, (r_o, r_o, r_n));
    (0xCA, (r_o, r_n, r_n));
    (0xCB, (r_o, r_o, r_n));
    (0xCC, (r_o, r_o, r_n));
    (0xCD, (r_o, r_n, r_n));
    (0xCE, (r_n, r_o, r_n));
    (0xCF, (r_o, r_o, r_n));
    (0x90, (r_o, r_o, r_n));
    (0x91, (r_o, r_o, r_n));
    (0x92, (r_o, r_o, r_n));
    (0x94, (r_o, r_o, r_n));
    (0x95, (r_o, r_o, r_n));
    (0x96, (r_o, r_o, r_n))]);
  (* objects_scsl.py:404-408 *)
  ("Ventilation fan", 0x01, 0x33, [
    (0x80, (r_m, r_m, r_m));
    (0xBF, (r_o, r_o, r_n));
    (0xA0, (r_o, r_o, r_n))]);
  (* objects_scsl.py:411-420 *)
  ("Air conditioner ventilation fan", 0x01, 0x34, [
    (0x80, (r_m, r_m, r_m));
    (0xB4, (r_o, r_o, r_n));
    (0xBF, (r_o, r_o, r_n));
    (0xBA, (r_o, r_n, r_n));
    (0xA0, (r_o, r_o, r_n));
    (0xE0, (r_o, r_o, r_n));
    (0xC0, (r_o, r_n, r_n));
    (0xC1, (r_o, r_n, r_n))]);
  (* objects_scsl.py:423-430 *)
  ("Air cleaner", 0x01, 0x35, [
    (0x80, (r_m, r_m, r_m));
    (0xE1, (r_o, r_n, r_n));
    (0xA0, (r_o, r_o, r_n));
    (0xC1, (r_o, r_n, r_n));
    (0xC2, (r_o, r_o, r_n));
    (0xC0, (r_o, r_n, r_n))]);
  (* objects_scsl.py:433-444 *)
  ("Humidifier", 0x01, 0x39, [
    (0x80, (r_m, r_m, r_m));
    (0xC0, (r_m, r_m, r_n));
    (0xC1, (r_m, r_m, r_n));
    (0xB4, (r_o, r_n, r_n));
    (0x94, (r_o, r_o, r_n));
    (0x96, (r_o, r_o, r_n));
    (0xC2, (r_o, r_o, r_n));
    (0xC3, (r_o, r_n, r_n));
    (0xC4, (r_o, r_o, r_n));
    (0xC5, (r_o, r_n, r_n))]);
  (* objects_scsl.py:447-460 *)
  ("Electric heater", 0x01, 0x42, [
    (0x80, (r_m, r_o, r_m));
    (0xB1, (r_o, r_o, r_n));
    (0xB3, (r_m, r_m, r_n));
    (0xBB, (r_o, r_n, r_n));
    (0xBC, (r_o, r_n, r_n));
    (0xA0, (r_o, r_o, r_n));
    (0x90, (r_o, r_o, r_n));
    (0x91, (r_o, r_o, r_n));
    (0x92, (r_o, r_o, r_n));
    (0x94, (r_o, r_o, r_n));
    (0x95, (r_o, r_o, r_n));
    (0x96, (r_o, r_o, r_n))]);
  (* objects_scsl.py:463-479 *)
  ("Fan heater", 0x01, 0x43, [
    (0x80, (r_m, r_m, r_m));
    (0xB3, (r_m, r_m, r_n));
    (0xBB, (r_o, r_n, r_n));
    (0xB1, (r_o, r_o, r_n));
    (0x90, (r_o, r_o, r_n));
    (0x91, (r_o, r_o, r_n));
    (0x92, (r_o, r_o, r_n));
    (0x94, (r_o, r_o, r_n));
    (0x95, (r_o, r_o, r_n));
    (0x96, (r_o, r_o, r_n));
    (0xC0, (r_o, r_o, r_n));
    (0xC1, (r_o, r_o, r_n));
    (0xC2, (r_o, r_o, r_n));
    (0xC3, (r_o, r_n, r_n));
    (0xC4, (r_o, r_n, r_n))]);
  (* objects_scsl.py:482-522 *)
  ("Package-type commercial air conditioner (indoor unit)", 0x01, 0x45, [
    (0x80, (r_m, r_m, r_m));
    (0xB0, (r_m, r_m, r_m));
    (0xB3, (r_m, r_m, r_m));
    (0xB4, (r_o, r_o, r_m));
    (0xB5, (r_o, r_o, r_n));
    (0xB6, (r_o, r_o, r_n));
    (0xB7, (r_o, r_o, r_n));
    (0xB8, (r_o, r_n, r_n));
    (0xB9, (r_o, r_n, r_n));
    (0xBA, (r_o, r_n, r_n));
    (0xBB, (r_o, r_n, r_n));
    (0xBF, (r_o, r_o, r_n));
    (0xA0, (r_o, r_o, r_n));
    (0xA4, (r_o, r_o, r_n));
    (0xA5, (r_o, r_o, r_n));
    (0xAA, (r_o, r_n, r_n));
    (0xAC, (r_o, r_n, r_n));
    (0xAE, (r_o, r_n, r_m));
    (0xC0, (r_o, r_o, r_n));
    (0xC1, (r_o, r_o, r_n));
    (0xC2, (r_o, r_o, r_n));
    (0xCD, (r_o, r_o, r_n));
    (0xCE, (r_o, r_o, r_n));
    (0xCF, (r_o, r_o, r_m));
    (0xDB, (r_o, r_n, r_n));
    (0xDC, (r_o, r_n, r_n));
    (0xE3, (r_m, r_m, r_m));
    (0xE4, (r_o, r_o, r_m));
    (0xE5, (r_o, r_o, r_n));
    (0xE6, (r_o, r_o, r_n));
    (0xE7, (r_o, r_o, r_n));
    (0xEA, (r_o, r_n, r_n));
    (0xEB, (r_o, r_n, r_n));
    (0x90, (r_o, r_o, r_n));
    (0x91, (r_o, r_o, r_n));
    (0x92, (r_o, r_o, r_n));
    (0x94, (r_o, r_o, r_n));
    (0x95, (r_o, r_o, r_n));
    (0x96, (r_o, r_o, r_n))]);
  (* objects_scsl.py:525-537 *)
  ("Package-type commercial air conditioner (outdoor unit)", 0x01, 0x46, [
    (0x80, (r_m, r_o, r_m));
    (0xB0, (r_o, r_o, r_m));
    (0xB8, (r_o, r_n, r_n));
    (0xB9, (r_o, r_n, r_n));
    (0xBE, (r_o, r_n, r_n));
    (0xAA, (r_o, r_n, r_n));
    (0xD0, (r_o, r_n, r_n));
    (0xD1, (r_m, r_n, r_n));
    (0xD2, (r_o, r_n, r_n));
    (0xDB, (r_o, r_n, r_n));
    (0xEE, (r_o, r_n, r_n))]);
  (* objects_scsl.py:540-546 *)
  ("Electrically operated shade", 0x02, 0x60, [
    (0x80, (r_m, r_o, r_m));
    (0xE0, (r_m, r_m, r_m));
    (0xE1, (r_m, r_m, r_n));
    (0xE2, (r_o, r_o, r_n));
    (0xE3, (r_o, r_o, r_n))]);
  (* objects_scsl.py:549-558 *)
  ("Electrically operated shutter", 0x02, 0x61, [
    (0x80, (r_m, r_o, r_m));
    (0xE0, (r_m, r_m, r_m));
    (0xE1, (r_o, r_o, r_n));
    (0xE2, (r_o, r_o, r_n));
    (0xE3, (r_o, r_o, r_n));
    (0xE4, (r_o, r_o, r_n));
    (0xE5, (r_o, r_o, r_n));
    (0xE7, (r_m, r_m, r_m))]);
  (* objects_scsl.py:561-570 *)
  ("Electrically operated storm window", 0x02, 0x63, [
    (0x80, (r_m, r_o, r_m));
    (0xE0, (r_m, r_m, r_m));
    (0xE1, (r_o, r_o, r_n));
    (0xE2, (r_o, r_o, r_n));
    (0xE3, (r_o, r_o, r_n));
    (0xE4, (r_o, r_o, r_n));
    (0xE5, (r_m, r_m, r_m));
    (0xE7, (r_o, r_o, r_m))]);
  (* objects_scsl.py:573-581 *)
  ("Garden sprinkler", 0x02, 0x67, [
    (0x80, (r_m, r_o, r_m));
    (0xE0, (r_m, r_m, r_n));
    (0xE1, (r_o, r_o, r_n));
    (0xE2, (r_o, r_o, r_n));
    (0xE3, (r_o, r_o, r_n));
    (0xE4, (r_o, r_o, r_n));
    (0xE5, (r_o, r_o, r_n))]);
  (* objects_scsl.py:584-611 *)
  ("Electric water heater", 0x02, 0x6B, [
    (0x80, (r_m, r_o, r_m));
    (0xB0, (r_m, r_m, r_n));
    (0xB1, (r_o, r_o, r_n));
    (0xB2, (r_o, r_n, r_n));
    (0xB3, (r_m, r_m, r_n));
    (0xC0, (r_o, r_o, r_n));
    (0xC1, (r_o, r_n, r_n));
    (0xC2, (r_o, r_n, r_m));
    (0xD1, (r_o, r_o, r_n));
    (0xD3, (r_o, r_o, r_n));
    (0xE0, (r_o, r_o, r_n));
    (0xE1, (r_o, r_n, r_n));
    (0xE2, (r_o, r_n, r_n));
    (0xE3, (r_m, r_m, r_n));
    (0xE5, (r_o, r_o, r_n));
    (0xE6, (r_o, r_o, r_n));
    (0xE7, (r_o, r_o, r_n));
    (0xE8, (r_o, r_o, r_n));
    (0xEE, (r_o, r_o, r_n));
    (0xD4, (r_o, r_o, r_n));
    (0xD5, (r_o, r_n, r_n));
    (0x90, (r_o, r_o, r_n));
    (0x91, (r_o, r_o, r_n));
    (0xDB, (r_o, r_n, r_n));
    (0xDC, (r_o, r_n, r_n));
    (0xDD, (r_o, r_n, r_n))]);
  (* objects_scsl.py:614-629 *)
  ("Bidet-equipped toilet(with electrically warmed seat)", 0x02, 0x6E, [
    (0x80, (r_m, r_o, r_m));
    (0xE0, (r_o, r_o, r_n));
    (0xE1, (r_m, r_m, r_n));
    (0xE2, (r_o, r_o, r_n));
    (0xE3, (r_o, r_o, r_n));
    (0xE4, (r_o, r_o, r_n));
    (0xE5, (r_o, r_o, r_n));
    (0xE6, (r_o, r_o, r_n));
    (0xE7, (r_o, r_n, r_n));
    (0xE8, (r_o, r_o, r_n));
    (0xE9, (r_o, r_o, r_n));
    (0xEA, (r_o, r_o, r_n));
    (0xEB, (r_o, r_n, r_n));
    (0xEC, (r_o, r_n, r_n))]);
  (* objects_scsl.py:632-641 *)
  ("Electric key", 0x02, 0x6F, [
    (0x80, (r_m, r_o, r_m));
    (0xE0, (r_m, r_m, r_m));
    (0xE1, (r_o, r_o, r_n));
    (0xE2, (r_o, r_n, r_n));
    (0xE3, (r_o, r_n, r_n));
    (0xE4, (r_o, r_n, r_n));
    (0xE5, (r_o, r_n, r_m));
    (0xE6, (r_o, r_o, r_n))]);
  (* objects_scsl.py:644-668 *)
  ("Hot water generator", 0x02, 0x72, [
    (0x80, (r_m, r_o, r_m));
    (0xD0, (r_m, r_n, r_n));
    (0xD1, (r_o, r_o, r_n));
    (0xD2, (r_o, r_o, r_n));
    (0xDA, (r_o, r_o, r_n));
    (0xDB, (r_o, r_n, r_n));
    (0xE1, (r_o, r_o, r_n));
    (0xE2, (r_m, r_n, r_n));
    (0xE3, (r_m, r_m, r_n));
    (0xE4, (r_o, r_o, r_n));
    (0xE5, (r_o, r_o, r_n));
    (0xE6, (r_o, r_o, r_n));
    (0xE7, (r_o, r_o, r_n));
    (0xE8, (r_o, r_o, r_n));
    (0xEE, (r_o, r_o, r_n));
    (0xE9, (r_o, r_o, r_n));
    (0xEA, (r_o, r_n, r_n));
    (0xEB, (r_o, r_n, r_n));
    (0xEC, (r_o, r_o, r_n));
    (0xED, (r_o, r_o, r_n));
    (0x90, (r_o, r_o, r_n));
    (0x91, (r_o, r_o, r_n));
    (0x92, (r_o, r_o, r_n))]);
  (* objects_scsl.py:671-691 *)
  ("Bathroom dryer", 0x02, 0x73, [
    (0x80, (r_m, r_o, r_m));
    (0xB0, (r_m, r_m, r_n));
    (0xB1, (r_o, r_o, r_n));
    (0xB2, (r_m, r_m, r_n));
    (0xB3, (r_o, r_o, r_n));
    (0xB4, (r_m, r_m, r_n));
    (0xB5, (r_o, r_o, r_n));
    (0xBA, (r_o, r_n, r_n));
    (0xBB, (r_o, r_n, r_n));
    (0xC2, (r_o, r_o, r_n));
    (0xCF, (r_o, r_o, r_n));
    (0xE0, (r_o, r_n, r_n));
    (0x90, (r_o, r_o, r_n));
    (0xE1, (r_o, r_o, r_n));
    (0x91, (r_o, r_o, r_n));
    (0x92, (r_o, r_o, r_n));
    (0x94, (r_o, r_o, r_n));
    (0x95, (r_o, r_o, r_n));
    (0x96, (r_o, r_o, r_n))]);
  (* objects_scsl.py:694-707 *)
  ("Home solar power generation", 0x02, 0x79, [
    (0x80, (r_m, r_o, r_m));
    (0xD0, (r_o, r_n, r_n));
    (0xE0, (r_m, r_n, r_n));
    (0xE1, (r_m, r_n, r_n));
    (0xE2, (r_n, r_o, r_n));
    (0xE3, (r_o, r_n, r_n));
    (0xE4, (r_n, r_o, r_n));
    (0xE5, (r_o, r_o, r_n));
    (0xE6, (r_o, r_o, r_n));
    (0xE7, (r_o, r_o, r_n));
    (0xE8, (r_o, r_o, r_n));
    (0xE9, (r_o, r_o, r_n))]);
  (* objects_scsl.py:710-727 *)
  ("Cold / hot water heat source equipment", 0x02, 0x7A, [
    (0x80, (r_m, r_o, r_m));
    (0xE0, (r_o, r_o, r_n));
    (0xE1, (r_m, r_m, r_n));
    (0xE2, (r_m, r_m, r_n));
    (0xE3, (r_o, r_n, r_n));
    (0xE4, (r_o, r_n, r_n));
    (0xE5, (r_o, r_o, r_n));
    (0xE6, (r_o, r_o, r_n));
    (0xE7, (r_o, r_o, r_n));
    (0xE8, (r_o, r_o, r_n));
    (0x90, (r_o, r_o, r_n));
    (0x91, (r_o, r_o, r_n));
    (0x92, (r_o, r_o, r_n));
    (0x94, (r_o, r_o, r_n));
    (0x95, (r_o, r_o, r_n));
    (0x96, (r_o, r_o, r_n))]);
  (* objects_scsl.py:730-747 *)
  ("Floor heater", 0x02, 0x7B, [
    (0x80, (r_m, r_m, r_m));
    (0xE0, (r_m, r_m, r_n));
    (0xE1, (r_m, r_m, r_n));
    (0xE2, (r_o, r_n, r_n));
    (0xE3, (r_o, r_n, r_n));
    (0xE4, (r_o, r_o, r_n));
    (0xE5, (r_o, r_o, r_n));
    (0xE6, (r_o, r_o, r_n));
    (0xE7, (r_o, r_o, r_n));
    (0xE8, (r_o, r_o, r_n));
    (0x90, (r_o, r_o, r_n));
    (0x91, (r_o, r_o, r_n));
    (0x92, (r_o, r_o, r_n));
    (0x94, (r_o, r_o, r_n));
    (0x95, (r_o, r_o, r_n));
    (0x96, (r_o, r_o, r_n))]);
  (* objects_scsl.py:750-769 *)
  ("Fuel cell", 0x02, 0x7C, [
    (0x80, (r_m, r_o, r_m));
    (0xC1, (r_o, r_n, r_n));
    (0xC2, (r_o, r_n, r_n));
    (0xC3, (r_o, r_n, r_n));
    (0xC4, (r_m, r_n, r_n));
    (0xC5, (r_m, r_n, r_n));
    (0xC6, (r_n, r_o, r_n));
    (0xC7, (r_o, r_n, r_n));
    (0xC8, (r_o, r_n, r_n));
    (0xC9, (r_n, r_o, r_n));
    (0xCA, (r_n, r_o, r_n));
    (0xCB, (r_o, r_n, r_n));
    (0xCC, (r_o, r_n, r_n));
    (0xCD, (r_o, r_n, r_n));
    (0xCE, (r_n, r_o, r_n));
    (0xD0, (r_o, r_n, r_n));
    (0xE1, (r_o, r_n, r_n));
    (0xE2, (r_o, r_n, r_n))]);
  (* objects_scsl.py:772-811 *)
  ("Storage battery", 0x02, 0x7D, [
    (0x80, (r_m, r_o, r_m));
    (0xC8, (r_o, r_n, r_n));
    (0xC9, (r_o, r_n, r_n));
    (0xCA, (r_o, r_n, r_n));
    (0xCB, (r_o, r_n, r_n));
    (0xCF, (r_e, r_e, r_e));
    (0xD0, (r_o, r_n, r_n));
    (0xD1, (r_o, r_n, r_n));
    (0xD2, (r_o, r_n, r_n));
    (0xD3, (r_o, r_n, r_n));
    (0xD4, (r_o, r_n, r_n));
    (0xD5, (r_o, r_n, r_n));
    (0xD6, (r_o, r_n, r_n));
    (0xD7, (r_n, r_o, r_n));
    (0xD8, (r_o, r_n, r_n));
    (0xD9, (r_n, r_o, r_n));
    (0xDA, (r_m, r_m, r_m));
    (0xDB, (r_o, r_n, r_n));
    (0xDC, (r_o, r_n, r_n));
    (0xDD, (r_o, r_n, r_n));
    (0xDE, (r_o, r_n, r_n));
    (0xDF, (r_o, r_n, r_n));
    (0xE0, (r_o, r_o, r_n));
    (0xE1, (r_o, r_o, r_n));
    (0xE2, (r_m, r_n, r_n));
    (0xE3, (r_m, r_n, r_n));
    (0xE4, (r_m, r_n, r_n));
    (0xE5, (r_o, r_n, r_n));
    (0xE6, (r_m, r_n, r_n));
    (0xE7, (r_o, r_o, r_n));
    (0xE8, (r_o, r_o, r_n));
    (0xE9, (r_o, r_o, r_n));
    (0xEA, (r_o, r_o, r_n));
    (0xEB, (r_o, r_o, r_n));
    (0xEC, (r_o, r_o, r_n));
    (0xED, (r_o, r_o, r_n));
    (0xEE, (r_o, r_o, r_n));
    (0xEF, (r_o, r_n, r_n))]);
  (* objects_scsl.py:814-852 *)
  ("Electric vehicle", 0x02, 0x7E, [
    (0x80, (r_m, r_o, r_m));
    (0xC0, (r_m, r_n, r_n));
    (0xC1, (r_m, r_n, r_n));
    (0xC2, (r_m, r_n, r_n));
    (0xC3, (r_m, r_n, r_n));
    (0xC4, (r_m, r_n, r_n));
    (0xC5, (r_m, r_n, r_n));
    (0xC6, (r_m, r_n, r_n));
    (0xC7, (r_m, r_n, r_m));
    (0xC8, (r_o, r_n, r_n));
    (0xC9, (r_o, r_n, r_n));
    (0xCA, (r_o, r_n, r_n));
    (0xCB, (r_o, r_n, r_n));
    (0xD0, (r_m, r_n, r_n));
    (0xD1, (r_m, r_n, r_n));
    (0xD2, (r_o, r_n, r_n));
    (0xD3, (r_o, r_n, r_n));
    (0xD4, (r_o, r_n, r_n));
    (0xD5, (r_o, r_n, r_n));
    (0xD6, (r_o, r_n, r_n));
    (0xD7, (r_o, r_o, r_n));
    (0xD8, (r_o, r_n, r_n));
    (0xD9, (r_o, r_o, r_n));
    (0xDA, (r_m, r_m, r_m));
    (0xDB, (r_o, r_n, r_n));
    (0xE2, (r_m, r_n, r_n));
    (0xE3, (r_m, r_n, r_n));
    (0xE4, (r_m, r_n, r_n));
    (0xE5, (r_o, r_n, r_n));
    (0xE7, (r_o, r_o, r_n));
    (0xE8, (r_o, r_o, r_n));
    (0xE9, (r_o, r_o, r_n));
    (0xEA, (r_o, r_o, r_n));
    (0xEB, (r_o, r_o, r_n));
    (0xEC, (r_o, r_o, r_n));
    (0xED, (r_o, r_o, r_n));
    (0xEE, (r_o, r_o, r_n))]);
  (* objects_scsl.py:855-874 *)
  ("Engine cogeneration", 0x02, 0x7F, [
    (0x80, (r_m, r_o, r_m));
    (0xC1, (r_o, r_n, r_n));
    (0xC2, (r_o, r_n, r_n));
    (0xC3, (r_o, r_n, r_n));
    (0xC4, (r_m, r_n, r_n));
    (0xC5, (r_m, r_n, r_n));
    (0xC6, (r_n, r_o, r_n));
    (0xC7, (r_o, r_n, r_n));
    (0xC8, (r_o, r_n, r_n));
    (0xC9, (r_n, r_o, r_n));
    (0xCA, (r_n, r_o, r_n));
    (0xCB, (r_o, r_n, r_n));
    (0xCC, (r_o, r_n, r_n));
    (0xCD, (r_o, r_n, r_n));
    (0xCE, (r_n, r_o, r_n));
    (0xD0, (r_o, r_n, r_n));
    (0xE1, (r_o, r_n, r_n));
    (0xE2, (r_o, r_n, r_n))]);
  (* objects_scsl.py:877-883 *)
  ("Electric energy meter", 0x02, 0x80, [
    (0x80, (r_m, r_o, r_m));
    (0xE0, (r_m, r_n, r_n));
    (0xE2, (r_m, r_n, r_n));
    (0xE3, (r_o, r_n, r_n));
    (0xE4, (r_o, r_n, r_n))]);
  (* objects_scsl.py:886-897 *)
  ("Water flow meter", 0x02, 0x81, [
    (0x80, (r_m, r_o, r_m));
    (0xD0, (r_o, r_o, r_n));
    (0xD1, (r_o, r_o, r_n));
    (0xE0, (r_m, r_n, r_n));
    (0xE1, (r_m, r_n, r_n));
    (0xE2, (r_o, r_n, r_n));
    (0xE3, (r_o, r_n, r_m));
    (0xE4, (r_o, r_n, r_n));
    (0xE5, (r_o, r_o, r_n));
    (0xE6, (r_o, r_o, r_n))]);
  (* objects_scsl.py:900-904 *)
  ("Gas meter", 0x02, 0x82, [
    (0x80, (r_m, r_o, r_m));
    (0xE0, (r_m, r_n, r_n));
    (0xE2, (r_o, r_n, r_n))]);
  (* objects_scsl.py:907-933 *)
  ("LP gas meter", 0x02, 0x83, [
    (0x80, (r_m, r_o, r_m));
    (0xE0, (r_m, r_n, r_n));
    (0xE1, (r_m, r_n, r_n));
    (0xE2, (r_o, r_n, r_m));
    (0xE3, (r_o, r_n, r_n));
    (0xE4, (r_o, r_n, r_n));
    (0xE5, (r_o, r_n, r_m));
    (0xE6, (r_o, r_n, r_n));
    (0xE7, (r_o, r_n, r_n));
    (0xE8, (r_o, r_n, r_n));
    (0xE9, (r_o, r_n, r_m));
    (0xEA, (r_o, r_o, r_n));
    (0xEB, (r_o, r_o, r_n));
    (0xEC, (r_o, r_o, r_n));
    (0xED, (r_o, r_n, r_n));
    (0xEE, (r_o, r_n, r_n));
    (0xEF, (r_o, r_n, r_n));
    (0xD0, (r_o, r_n, r_n));
    (0xD1, (r_o, r_n, r_n));
    (0xD2, (r_o, r_n, r_n));
    (0xD3, (r_o, r_n, r_n));
    (0xD4, (r_o, r_n, r_n));
    (0xD5, (r_o, r_n, r_n));
    (0xD6, (r_o, r_n, r_n));
    (0xD7, (r_o, r_o, r_n))]);
  (* objects_scsl.py:936-994 *)
  ("Distribution panel metering", 0x02, 0x87, [
    (0x80, (r_m, r_o, r_m));
    (0xB0, (r_o, r_n, r_n));
    (0xB1, (r_o, r_n, r_n));
    (0xB2, (r_o, r_o, r_n));
    (0xB3, (r_o, r_n, r_n));
    (0xB4, (r_o, r_o, r_n));
    (0xB5, (r_o, r_n, r_n));
    (0xB6, (r_o, r_o, r_n));
    (0xB7, (r_o, r_n, r_n));
    (0xB8, (r_o, r_n, r_n));
    (0xB9, (r_o, r_o, r_n));
    (0xBA, (r_o, r_n, r_n));
    (0xBB, (r_o, r_o, r_n));
    (0xBC, (r_o, r_n, r_n));
    (0xBD, (r_o, r_o, r_n));
    (0xBE, (r_o, r_n, r_n));
    (0xC0, (r_m, r_n, r_n));
    (0xC1, (r_m, r_n, r_n));
    (0xC2, (r_m, r_n, r_n));
    (0xC3, (r_o, r_n, r_n));
    (0xC4, (r_o, r_n, r_n));
    (0xC5, (r_o, r_o, r_n));
    (0xC6, (r_o, r_n, r_n));
    (0xC7, (r_o, r_n, r_n));
    (0xC8, (r_o, r_n, r_n));
    (0xD0, (r_o, r_n, r_n));
    (0xD1, (r_o, r_n, r_n));
    (0xD2, (r_o, r_n, r_n));
    (0xD3, (r_o, r_n, r_n));
    (0xD4, (r_o, r_n, r_n));
    (0xD5, (r_o, r_n, r_n));
    (0xD6, (r_o, r_n, r_n));
    (0xD7, (r_o, r_n, r_n));
    (0xD8, (r_o, r_n, r_n));
    (0xD9, (r_o, r_n, r_n));
    (0xDA, (r_o, r_n, r_n));
    (0xDB, (r_o, r_n, r_n));
    (0xDC, (r_o, r_n, r_n));
    (0xDD, (r_o, r_n, r_n));
    (0xDE, (r_o, r_n, r_n));
    (0xDF, (r_o, r_n, r_n));
    (0xE0, (r_o, r_n, r_n));
    (0xE1, (r_o, r_n, r_n));
    (0xE2, (r_o, r_n, r_n));
    (0xE3, (r_o, r_n, r_n));
    (0xE4, (r_o, r_n, r_n));
    (0xE5, (r_o, r_n, r_n));
    (0xE6, (r_o, r_n, r_n));
    (0xE7, (r_o, r_n, r_n));
    (0xE8, (r_o, r_n, r_n));
    (0xE9, (r_o, r_n, r_n));
    (0xEA, (r_o, r_n, r_n));
    (0xEB, (r_o, r_n, r_n));
    (0xEC, (r_o, r_n, r_n));
    (0xED, (r_o, r_n, r_n));
    (0xEE, (r_o, r_n, r_n));
    (0xEF, (r_o, r_n, r_n))]);
  (* objects_scsl.py:997-1018 *)
  ("Smart electric energy meter", 0x02, 0x88, [
    (0x80, (r_m, r_o, r_m));
    (0xD0, (r_o, r_o, r_n));
    (0xD1, (r_o, r_o, r_n));
    (0xD2, (r_o, r_n, r_n));
    (0xD3, (r_o, r_n, r_n));
    (0xD4, (r_o, r_n, r_n));
    (0xD5, (r_o, r_n, r_n));
    (0xD6, (r_o, r_o, r_n));
    (0xD7, (r_m, r_n, r_n));
    (0xE0, (r_m, r_n, r_n));
    (0xE1, (r_m, r_n, r_n));
    (0xE2, (r_o, r_n, r_n));
    (0xE3, (r_o, r_n, r_n));
    (0xE4, (r_o, r_n, r_n));
    (0xE5, (r_o, r_o, r_n));
    (0xE7, (r_o, r_n, r_n));
    (0xE8, (r_o, r_n, r_n));
    (0xE9, (r_o, r_n, r_n));
    (0xEA, (r_m, r_n, r_n));
    (0xEB, (r_o, r_n, r_n))]);
  (* objects_scsl.py:1021-1040 *)
  ("Smart gas meter", 0x02, 0x89, [
    (0x80, (r_m, r_o, r_m));
    (0xE0, (r_o, r_o, r_n));
    (0xE1, (r_o, r_o, r_n));
    (0xE2, (r_m, r_n, r_n));
    (0xE3, (r_o, r_n, r_n));
    (0xE4, (r_o, r_n, r_n));
    (0xE5, (r_o, r_o, r_n));
    (0xE6, (r_o, r_n, r_n));
    (0xE7, (r_o, r_n, r_n));
    (0xE8, (r_o, r_n, r_n));
    (0xE9, (r_o, r_n, r_n));
    (0xEA, (r_o, r_n, r_n));
    (0xEB, (r_o, r_n, r_n));
    (0xEC, (r_o, r_n, r_n));
    (0xED, (r_o, r_o, r_n));
    (0xEE, (r_o, r_o, r_n));
    (0xD0, (r_m, r_n, r_n));
    (0xD1, (r_n, r_n, r_n))]);
  (* objects_scsl.py:1043-1066 *)
  ("General lighting class", 0x02, 0x90, [
    (0x80, (r_m, r_m, r_m));
    (0xB0, (r_o, r_o, r_n));
    (0xB1, (r_o, r_o, r_n));
    (0xB2, (r_o, r_o, r_n));
    (0xB3, (r_o, r_o, r_n));
    (0xB4, (r_o, r_n, r_n));
    (0xB5, (r_o, r_n, r_n));
    (0xB6, (r_m, r_m, r_n));
    (0xB7, (r_o, r_o, r_n));
    (0xB8, (r_o, r_o, r_n));
    (0xB9, (r_o, r_o, r_n));
    (0xBA, (r_o, r_o, r_n));
    (0xBB, (r_o, r_o, r_n));
    (0xBC, (r_o, r_o, r_n));
    (0xBD, (r_o, r_o, r_n));
    (0xBE, (r_o, r_o, r_n));
    (0xBF, (r_o, r_o, r_n));
    (0xC0, (r_o, r_o, r_n));
    (0x90, (r_o, r_o, r_n));
    (0x91, (r_o, r_o, r_n));
    (0x94, (r_o, r_o, r_n));
    (0x95, (r_o, r_o, r_n))]);
  (* objects_scsl.py:1069-1073 *)
  ("Buzzer", 0x02, 0xA0, [
    (0x80, (r_m, r_o, r_m));
    (0xB1, (r_o, r_o, r_n));
    (0xE0, (r_o, r_o, r_n))]);
  (* objects_scsl.py:1076-1085 *)
  ("Electric hot water pot(electric thermos)", 0x03, 0xB2, [
    (0x80, (r_m, r_o, r_m));
    (0xB0, (r_o, r_n, r_n));
    (0xB1, (r_o, r_n, r_m));
    (0xB2, (r_o, r_o, r_n));
    (0xE0, (r_o, r_o, r_n));
    (0xE1, (r_o, r_o, r_n));
    (0xE2, (r_o, r_n, r_m));
    (0xE3, (r_o, r_n, r_n))]);
  (* objects_scsl.py:1088-1124 *)
  ("Refrigerator", 0x03, 0xB7, [
    (0x80, (r_m, r_o, r_m));
    (0xB0, (r_m, r_n, r_n));
    (0xB1, (r_o, r_n, r_m));
    (0xB2, (r_o, r_n, r_n));
    (0xB3, (r_o, r_n, r_n));
    (0xB4, (r_o, r_n, r_n));
    (0xB5, (r_o, r_n, r_n));
    (0xB6, (r_o, r_n, r_n));
    (0xE0, (r_o, r_n, r_n));
    (0xE2, (r_o, r_o, r_n));
    (0xE3, (r_o, r_o, r_n));
    (0xE4, (r_o, r_o, r_n));
    (0xE5, (r_o, r_o, r_n));
    (0xE6, (r_o, r_o, r_n));
    (0xE9, (r_o, r_o, r_n));
    (0xEA, (r_o, r_o, r_n));
    (0xEB, (r_o, r_o, r_n));
    (0xEC, (r_o, r_o, r_n));
    (0xED, (r_o, r_o, r_n));
    (0xD1, (r_o, r_n, r_n));
    (0xD2, (r_o, r_n, r_n));
    (0xD3, (r_o, r_n, r_n));
    (0xD4, (r_o, r_n, r_n));
    (0xD5, (r_o, r_n, r_n));
    (0xD8, (r_o, r_n, r_n));
    (0xDA, (r_o, r_n, r_n));
    (0xDC, (r_o, r_n, r_n));
    (0xA0, (r_o, r_o, r_n));
    (0xA1, (r_o, r_o, r_n));
    (0xA4, (r_o, r_o, r_n));
    (0xA5, (r_o, r_n, r_n));
    (0xA6, (r_o, r_n, r_n));
    (0xA8, (r_o, r_o, r_n));
    (0xA9, (r_o, r_o, r_n));
    (0xAD, (r_o, r_o, r_n))]);
  (* objects_scsl.py:1127-1149 *)
  ("Combination microwave oven(Electronic oven)", 0x03, 0xB8, [
    (0x80, (r_m, r_o, r_m));
    (0xB0, (r_o, r_n, r_n));
    (0xB1, (r_o, r_n, r_n));
    (0xB2, (r_o, r_o, r_n));
    (0xE0, (r_o, r_o, r_n));
    (0xE1, (r_o, r_o, r_n));
    (0xE2, (r_o, r_o, r_n));
    (0xD0, (r_o, r_o, r_n));
    (0xD1, (r_o, r_o, r_n));
    (0xD5, (r_o, r_o, r_n));
    (0xD6, (r_o, r_o, r_n));
    (0xE3, (r_o, r_o, r_n));
    (0xE4, (r_o, r_o, r_n));
    (0xE5, (r_o, r_o, r_n));
    (0xE6, (r_o, r_o, r_n));
    (0xE7, (r_o, r_o, r_n));
    (0xE8, (r_o, r_o, r_n));
    (0xE9, (r_o, r_o, r_n));
    (0xEA, (r_n, r_o, r_n));
    (0xEB, (r_o, r_o, r_n));
    (0xEC, (r_o, r_o, r_n))]);
  (* objects_scsl.py:1152-1163 *)
  ("Cooking heater", 0x03, 0xB9, [
    (0x80, (r_m, r_o, r_m));
    (0xB1, (r_m, r_n, r_n));
    (0xB2, (r_o, r_o, r_n));
    (0xB3, (r_n, r_m, r_n));
    (0xE7, (r_o, r_o, r_n));
    (0xE3, (r_o, r_o, r_n));
    (0xE0, (r_o, r_o, r_n));
    (0x96, (r_o, r_o, r_n));
    (0xA1, (r_o, r_o, r_n));
    (0xA2, (r_o, r_o, r_n))]);
  (* objects_scsl.py:1166-1177 *)
  ("Rice cooker", 0x03, 0xBB, [
    (0x80, (r_m, r_o, r_m));
    (0xB0, (r_o, r_n, r_n));
    (0xB1, (r_m, r_n, r_n));
    (0xB2, (r_m, r_m, r_n));
    (0xE1, (r_o, r_o, r_n));
    (0xE5, (r_o, r_n, r_n));
    (0xE6, (r_o, r_n, r_n));
    (0x90, (r_o, r_o, r_n));
    (0x91, (r_o, r_o, r_n));
    (0x92, (r_o, r_o, r_n))]);
  (* objects_scsl.py:1180-1189 *)
  ("Washing machine", 0x03, 0xC5, [
    (0x80, (r_m, r_o, r_m));
    (0xB0, (r_o, r_n, r_n));
    (0xB2, (r_o, r_o, r_n));
    (0xE1, (r_o, r_n, r_n));
    (0xE6, (r_o, r_n, r_n));
    (0x90, (r_o, r_o, r_n));
    (0x91, (r_o, r_o, r_n));
    (0x92, (r_o, r_o, r_n))]);
  (* objects_scsl.py:1192-1201 *)
  ("Clothes dryer", 0x03, 0xC6, [
    (0x80, (r_m, r_o, r_m));
    (0xB0, (r_o, r_n, r_n));
    (0xB2, (r_o, r_o, r_n));
    (0xE1, (r_o, r_n, r_n));
    (0xE6, (r_o, r_n, r_n));
    (0x90, (r_o, r_o, r_n));
    (0x91, (r_o, r_o, r_n));
    (0x92, (r_o, r_o, r_n))]);
  (* objects_scsl.py:1204-1238 *)
  ("Washer and dryer", 0x03, 0xD3, [
    (0x80, (r_m, r_o, r_m));
    (0xB0, (r_o, r_n, r_n));
    (0xB2, (r_o, r_o, r_n));
    (0xD0, (r_o, r_o, r_n));
    (0xD1, (r_o, r_o, r_n));
    (0xD2, (r_o, r_o, r_n));
    (0xD3, (r_o, r_n, r_n));
    (0xD4, (r_o, r_n, r_n));
    (0xD5, (r_o, r_n, r_n));
    (0xD6, (r_o, r_o, r_n));
    (0xD7, (r_o, r_o, r_n));
    (0xD8, (r_o, r_o, r_n));
    (0xDB, (r_o, r_n, r_n));
    (0xDC, (r_o, r_n, r_n));
    (0xDF, (r_o, r_n, r_n));
    (0xE1, (r_o, r_o, r_n));
    (0xE2, (r_o, r_n, r_n));
    (0xE3, (r_o, r_o, r_n));
    (0xE4, (r_o, r_o, r_n));
    (0xE5, (r_o, r_o, r_n));
    (0xE6, (r_o, r_o, r_n));
    (0xE7, (r_o, r_o, r_n));
    (0xE8, (r_o, r_o, r_n));
    (0xE9, (r_o, r_o, r_n));
    (0xEA, (r_o, r_o, r_n));
    (0xEB, (r_o, r_o, r_n));
    (0xEC, (r_o, r_o, r_n));
    (0xED, (r_o, r_n, r_n));
    (0xEE, (r_o, r_o, r_n));
    (0xEF, (r_o, r_n, r_n));
    (0x90, (r_o, r_o, r_n));
    (0x91, (r_o, r_o, r_n));
    (0x92, (r_o, r_o, r_n))]);
  (* objects_scsl.py:1241-1245 *)
  ("Weighing machine", 0x04, 0x01, [
    (0x80, (r_m, r_o, r_m));
    (0xE0, (r_m, r_n, r_n));
    (0xE1, (r_o, r_n, r_n))]);
  (* objects_scsl.py:1248-1251 *)
  ("Switch (supporting JEM-A / HA terminals)", 0x05, 0xFD, [
    (0x80, (r_m, r_m, r_m));
    (0xE0, (r_o, r_o, r_n))]);
  (* objects_scsl.py:1254-1261 *)
  ("Display", 0x06, 0x01, [
    (0x80, (r_m, r_m, r_m));
    (0xB0, (r_o, r_o, r_n));
    (0xB1, (r_m, r_n, r_m));
    (0xB2, (r_m, r_n, r_n));
    (0xB3, (r_o, r_m, r_n));
    (0xB4, (r_m, r_n, r_n))]);
  (* objects_scsl.py:1264-1271 *)
  ("Television", 0x06, 0x02, [
    (0x80, (r_m, r_m, r_m));
    (0xB0, (r_o, r_o, r_n));
    (0xB1, (r_m, r_n, r_m));
    (0xB2, (r_m, r_n, r_n));
    (0xB3, (r_o, r_m, r_n));
    (0xB4, (r_m, r_n, r_n))])
].

(** uecho/std/objects_mra.py:30-1104. *)
Definition mra_table : list std_entry := [
  (* objects_mra.py:30-60 *)
  ("Super class", 0x00, 0x00, [
    (0x80, (r_r, r_o, r_r));
    (0x81, (r_r, r_r, r_r));
    (0x81, (r_r, r_r, r_r));
    (0x82, (r_r, r_na, r_o));
    (0x83, (r_o, r_o, r_o));
    (0x83, (r_o, r_na, r_o));
    (0x84, (r_o, r_na, r_o));
    (0x85, (r_o, r_na, r_o));
    (0x86, (r_o, r_na, r_o));
    (0x87, (r_o, r_o, r_o));
    (0x88, (r_r, r_na, r_r));
    (0x89, (r_o, r_na, r_o));
    (0x8A, (r_r, r_na, r_o));
    (0x8B, (r_o, r_na, r_o));
    (0x8C, (r_o, r_na, r_o));
    (0x8D, (r_o, r_na, r_o));
    (0x8E, (r_o, r_na, r_o));
    (0x8F, (r_o, r_o, r_o));
    (0x93, (r_o, r_o, r_o));
    (0x93, (r_o, r_o, r_r));
    (0x93, (r_o, r_o, r_o));
    (0x93, (r_o, r_o, r_o));
    (0x97, (r_o, r_o, r_o));
    (0x98, (r_o, r_o, r_o));
    (0x99, (r_o, r_o, r_o));
    (0x9A, (r_o, r_na, r_o));
    (0x9D, (r_r, r_na, r_o));
    (0x9E, (r_r, r_na, r_o));
    (0x9F, (r_r, r_na, r_o))]);
  (* objects_mra.py:63-83 *)
  ("Node profile", 0x0E, 0xF0, [
    (0x80, (r_r, r_na, r_r));
    (0x82, (r_r, r_na, r_o));
    (0x83, (r_r, r_na, r_o));
    (0x88, (r_o, r_na, r_o));
    (0x89, (r_o, r_na, r_o));
    (0x8A, (r_r, r_na, r_o));
    (0x8B, (r_o, r_na, r_o));
    (0x8C, (r_o, r_na, r_o));
    (0x8D, (r_o, r_na, r_o));
    (0x8E, (r_o, r_na, r_o));
    (0x9D, (r_r, r_na, r_o));
    (0x9E, (r_r, r_na, r_o));
    (0x9F, (r_r, r_na, r_o));
    (0xBF, (r_o, r_o, r_o));
    (0xD3, (r_r, r_na, r_o));
    (0xD4, (r_r, r_na, r_o));
    (0xD5, (r_o, r_na, r_r));
    (0xD6, (r_r, r_na, r_o));
    (0xD7, (r_r, r_na, r_o))]);
  (* objects_mra.py:86-97 *)
  ("Hybrid water heater", 0x02, 0xA6, [
    (0xB0, (r_o, r_o, r_r));
    (0xB2, (r_o, r_na, r_r));
    (0xB3, (r_o, r_na, r_r));
    (0xB6, (r_o, r_o, r_o));
    (0xB7, (r_o, r_o, r_o));
    (0xB8, (r_r, r_r, r_r));
    (0xB9, (r_o, r_o, r_o));
    (0xC3, (r_o, r_na, r_r));
    (0xE1, (r_o, r_na, r_o));
    (0xE2, (r_o, r_na, r_o))]);
  (* objects_mra.py:100-102 *)
  ("Switch (supporting JEM-A/HA terminals)", 0x05, 0xFD, [
    (0xE0, (r_o, r_o, r_o))]);
  (* objects_mra.py:105-134 *)
  ("Instantaneous water heater", 0x02, 0x72, [
    (0x90, (r_o, r_o, r_o));
    (0x91, (r_o, r_o, r_o));
    (0x92, (r_o, r_o, r_o));
    (0xD0, (r_r, r_na, r_o));
    (0xD1, (r_o, r_o, r_o));
    (0xD2, (r_o, r_o, r_o));
    (0xD4, (r_o, r_o, r_o));
    (0xD5, (r_o, r_na, r_o));
    (0xD6, (r_o, r_o, r_o));
    (0xD7, (r_o, r_o, r_o));
    (0xDA, (r_o, r_o, r_o));
    (0xDB, (r_o, r_na, r_o));
    (0xE1, (r_o, r_o, r_o));
    (0xE2, (r_r, r_na, r_o));
    (0xE3, (r_ro, r_ro, r_o));
    (0xE4, (r_o, r_o, r_o));
    (0xE5, (r_o, r_o, r_o));
    (0xE6, (r_o, r_o, r_o));
    (0xE7, (r_o, r_o, r_o));
    (0xE8, (r_o, r_o, r_o));
    (0xE9, (r_o, r_o, r_o));
    (0xE9, (r_o, r_na, r_o));
    (0xEA, (r_o, r_na, r_o));
    (0xEB, (r_o, r_na, r_o));
    (0xEC, (r_o, r_o, r_o));
    (0xED, (r_o, r_o, r_o));
    (0xEE, (r_o, r_o, r_o));
    (0xEF, (r_o, r_na, r_r))]);
  (* objects_mra.py:137-161 *)
  ("Commercial showcase", 0x03, 0xCE, [
    (0xB0, (r_r, r_r, r_r));
    (0xB0, (r_r, r_r, r_r));
    (0xBD, (r_o, r_na, r_o));
    (0xCA, (r_o, r_o, r_o));
    (0xCA, (r_r, r_o, r_o));
    (0xD0, (r_r, r_na, r_o));
    (0xD1, (r_r, r_na, r_o));
    (0xD2, (r_r, r_na, r_o));
    (0xD3, (r_r, r_na, r_o));
    (0xD4, (r_r, r_na, r_o));
    (0xE0, (r_r, r_o, r_r));
    (0xE1, (r_o, r_o, r_r));
    (0xE2, (r_o, r_o, r_o));
    (0xE3, (r_r, r_na, r_o));
    (0xE4, (r_o, r_na, r_o));
    (0xE5, (r_o, r_na, r_o));
    (0xE6, (r_o, r_na, r_o));
    (0xE7, (r_r, r_na, r_o));
    (0xEB, (r_o, r_na, r_o));
    (0xEC, (r_o, r_na, r_o));
    (0xED, (r_o, r_o, r_o));
    (0xEE, (r_o, r_o, r_o));
    (0xEF, (r_r, r_r, r_o))]);
  (* objects_mra.py:164-167 *)
  ("Illuminance sensor", 0x00, 0xD0, [
    (0xE0, (r_rc, r_na, r_o));
    (0xE1, (r_rc, r_na, r_o))]);
  (* objects_mra.py:170-177 *)
  ("Television", 0x06, 0x02, [
    (0x80, (r_r, r_ro, r_r));
    (0xB0, (r_o, r_o, r_o));
    (0xB1, (r_ro, r_na, r_r));
    (0xB2, (r_ro, r_na, r_o));
    (0xB3, (r_o, r_r, r_o));
    (0xB4, (r_ro, r_na, r_o))]);
  (* objects_mra.py:180-239 *)
  ("EV charger and discharger", 0x02, 0x7E, [
    (0xC0, (r_r, r_na, r_o));
    (0xC1, (r_rc, r_na, r_o));
    (0xC1, (r_o, r_na, r_o));
    (0xC2, (r_r, r_na, r_o));
    (0xC3, (r_rc, r_na, r_o));
    (0xC3, (r_o, r_na, r_o));
    (0xC4, (r_r, r_na, r_o));
    (0xC5, (r_r, r_na, r_o));
    (0xC6, (r_r, r_na, r_o));
    (0xC7, (r_r, r_na, r_r));
    (0xC7, (r_r, r_na, r_r));
    (0xC7, (r_r, r_na, r_r));
    (0xC8, (r_r, r_na, r_o));
    (0xC9, (r_r, r_na, r_o));
    (0xCA, (r_r, r_na, r_o));
    (0xCB, (r_r, r_na, r_o));
    (0xCC, (r_r, r_na, r_o));
    (0xCD, (r_na, r_r, r_na));
    (0xCE, (r_r, r_na, r_o));
    (0xCF, (r_r, r_na, r_o));
    (0xD0, (r_r, r_na, r_o));
    (0xD1, (r_rc, r_na, r_o));
    (0xD1, (r_o, r_na, r_o));
    (0xD2, (r_o, r_na, r_o));
    (0xD3, (r_o, r_na, r_o));
    (0xD4, (r_o, r_na, r_o));
    (0xD5, (r_o, r_na, r_o));
    (0xD6, (r_o, r_na, r_o));
    (0xD7, (r_na, r_o, r_na));
    (0xD8, (r_o, r_na, r_o));
    (0xD9, (r_na, r_o, r_na));
    (0xDA, (r_r, r_r, r_r));
    (0xDA, (r_r, r_r, r_r));
    (0xDA, (r_r, r_r, r_r));
    (0xDA, (r_r, r_r, r_r));
    (0xDB, (r_o, r_na, r_o));
    (0xDC, (r_r, r_o, r_r));
    (0xDC, (r_r, r_o, r_r));
    (0xDD, (r_r, r_o, r_r));
    (0xDD, (r_r, r_o, r_r));
    (0xDE, (r_o, r_o, r_o));
    (0xDF, (r_o, r_o, r_o));
    (0xE0, (r_o, r_o, r_o));
    (0xE1, (r_o, r_na, r_r));
    (0xE2, (r_r, r_na, r_o));
    (0xE3, (r_rc, r_na, r_o));
    (0xE3, (r_o, r_na, r_o));
    (0xE4, (r_r, r_na, r_o));
    (0xE5, (r_o, r_na, r_r));
    (0xE6, (r_r, r_na, r_o));
    (0xE7, (r_o, r_o, r_o));
    (0xE9, (r_o, r_o, r_o));
    (0xEA, (r_o, r_o, r_o));
    (0xEB, (r_o, r_o, r_o));
    (0xEC, (r_o, r_o, r_o));
    (0xED, (r_o, r_o, r_o));
    (0xEE, (r_o, r_o, r_o));
    (0xEF, (r_o, r_na, r_o))]);
  (* objects_mra.py:242-251 *)
  ("Package-type commercial air conditioner (outdoor unit)", 0x01, 0x57, [
    (0xAB, (r_o, r_na, r_o));
    (0xB8, (r_o, r_na, r_o));
    (0xBE, (r_o, r_na, r_o));
    (0xCA, (r_r, r_na, r_o));
    (0xDB, (r_r, r_na, r_o));
    (0xDD, (r_r, r_na, r_o));
    (0xDE, (r_r, r_r, r_o));
    (0xDF, (r_o, r_na, r_o))]);
  (* objects_mra.py:254-256 *)
  ("Humidity sensor", 0x00, 0x12, [
    (0xE0, (r_r, r_na, r_o))]);
  (* objects_mra.py:259-262 *)
  ("Mono functional lighting", 0x02, 0x91, [
    (0x80, (r_r, r_r, r_r));
    (0xB0, (r_o, r_o, r_o))]);
  (* objects_mra.py:265-322 *)
  ("Power distribution board metering", 0x02, 0x87, [
    (0xB0, (r_o, r_na, r_o));
    (0xB1, (r_o, r_na, r_o));
    (0xB2, (r_o, r_o, r_o));
    (0xB3, (r_o, r_na, r_o));
    (0xB4, (r_o, r_o, r_o));
    (0xB5, (r_o, r_na, r_o));
    (0xB6, (r_o, r_o, r_o));
    (0xB7, (r_o, r_na, r_o));
    (0xB8, (r_o, r_na, r_o));
    (0xB9, (r_o, r_o, r_o));
    (0xBA, (r_o, r_na, r_o));
    (0xBB, (r_o, r_o, r_o));
    (0xBC, (r_o, r_na, r_o));
    (0xBD, (r_o, r_o, r_o));
    (0xBE, (r_o, r_na, r_o));
    (0xC0, (r_r, r_na, r_o));
    (0xC1, (r_r, r_na, r_o));
    (0xC2, (r_r, r_na, r_o));
    (0xC3, (r_o, r_na, r_o));
    (0xC4, (r_o, r_na, r_o));
    (0xC5, (r_o, r_o, r_o));
    (0xC6, (r_o, r_na, r_o));
    (0xC7, (r_o, r_na, r_o));
    (0xC8, (r_o, r_na, r_o));
    (0xD0, (r_o, r_na, r_o));
    (0xD1, (r_o, r_na, r_o));
    (0xD2, (r_o, r_na, r_o));
    (0xD3, (r_o, r_na, r_o));
    (0xD4, (r_o, r_na, r_o));
    (0xD5, (r_o, r_na, r_o));
    (0xD6, (r_o, r_na, r_o));
    (0xD7, (r_o, r_na, r_o));
    (0xD8, (r_o, r_na, r_o));
    (0xD9, (r_o, r_na, r_o));
    (0xDA, (r_o, r_na, r_o));
    (0xDB, (r_o, r_na, r_o));
    (0xDC, (r_o, r_na, r_o));
    (0xDD, (r_o, r_na, r_o));
    (0xDE, (r_o, r_na, r_o));
    (0xDF, (r_o, r_na, r_o));
    (0xE0, (r_o, r_na, r_o));
    (0xE1, (r_o, r_na, r_o));
    (0xE2, (r_o, r_na, r_o));
    (0xE3, (r_o, r_na, r_o));
    (0xE4, (r_o, r_na, r_o));
    (0xE5, (r_o, r_na, r_o));
    (0xE6, (r_o, r_na, r_o));
    (0xE7, (r_o, r_na, r_o));
    (0xE8, (r_o, r_na, r_o));
    (0xE9, (r_o, r_na, r_o));
    (0xEA, (r_o, r_na, r_o));
    (0xEB, (r_o, r_na, r_o));
    (0xEC, (r_o, r_na, r_o));
    (0xED, (r_o, r_na, r_o));
    (0xEE, (r_o, r_na, r_o));
    (0xEF, (r_o, r_na, r_o))]);
  (* objects_mra.py:325-377 *)
  ("Electric water heater", 0x02, 0x6B, [
    (0x90, (r_o, r_o, r_o));
    (0x91, (r_o, r_o, r_o));
    (0xB0, (r_r, r_r, r_o));
    (0xB0, (r_r, r_r, r_r));
    (0xB1, (r_o, r_o, r_o));
    (0xB2, (r_o, r_na, r_o));
    (0xB2, (r_r, r_na, r_r));
    (0xB3, (r_o, r_o, r_o));
    (0xB4, (r_o, r_o, r_o));
    (0xB5, (r_o, r_o, r_o));
    (0xB6, (r_o, r_o, r_o));
    (0xC0, (r_o, r_o, r_o));
    (0xC0, (r_r, r_r, r_o));
    (0xC1, (r_o, r_na, r_o));
    (0xC2, (r_o, r_na, r_r));
    (0xC3, (r_r, r_na, r_r));
    (0xC4, (r_o, r_o, r_o));
    (0xC7, (r_r, r_r, r_o));
    (0xC8, (r_r, r_na, r_o));
    (0xC9, (r_r, r_na, r_o));
    (0xCA, (r_r, r_r, r_o));
    (0xCB, (r_r, r_na, r_o));
    (0xCC, (r_r, r_na, r_o));
    (0xCD, (r_r, r_r, r_o));
    (0xCE, (r_r, r_na, r_o));
    (0xCF, (r_r, r_na, r_o));
    (0xD1, (r_o, r_o, r_o));
    (0xD3, (r_o, r_o, r_o));
    (0xD4, (r_o, r_o, r_o));
    (0xD5, (r_o, r_na, r_o));
    (0xD6, (r_o, r_o, r_o));
    (0xD7, (r_o, r_o, r_o));
    (0xD8, (r_o, r_na, r_o));
    (0xD9, (r_o, r_o, r_o));
    (0xDB, (r_o, r_na, r_o));
    (0xDC, (r_o, r_na, r_o));
    (0xDD, (r_o, r_na, r_o));
    (0xE0, (r_o, r_o, r_o));
    (0xE1, (r_o, r_na, r_o));
    (0xE2, (r_o, r_na, r_o));
    (0xE3, (r_ro, r_ro, r_o));
    (0xE4, (r_o, r_o, r_o));
    (0xE5, (r_o, r_o, r_o));
    (0xE5, (r_o, r_o, r_o));
    (0xE6, (r_o, r_o, r_o));
    (0xE6, (r_o, r_o, r_o));
    (0xE7, (r_o, r_o, r_o));
    (0xE8, (r_o, r_o, r_o));
    (0xE9, (r_o, r_na, r_o));
    (0xEA, (r_o, r_na, r_r));
    (0xEE, (r_o, r_o, r_o))]);
  (* objects_mra.py:380-405 *)
  ("General lighting", 0x02, 0x90, [
    (0x80, (r_r, r_r, r_r));
    (0x90, (r_o, r_o, r_o));
    (0x91, (r_o, r_o, r_o));
    (0x94, (r_o, r_o, r_o));
    (0x95, (r_o, r_o, r_o));
    (0xB0, (r_o, r_o, r_o));
    (0xB1, (r_o, r_o, r_o));
    (0xB1, (r_o, r_o, r_o));
    (0xB1, (r_o, r_o, r_o));
    (0xB2, (r_o, r_o, r_o));
    (0xB3, (r_o, r_o, r_o));
    (0xB4, (r_o, r_na, r_o));
    (0xB5, (r_o, r_na, r_o));
    (0xB6, (r_r, r_r, r_o));
    (0xB7, (r_o, r_o, r_o));
    (0xB8, (r_o, r_o, r_o));
    (0xB9, (r_o, r_o, r_o));
    (0xBA, (r_o, r_o, r_o));
    (0xBB, (r_o, r_o, r_o));
    (0xBC, (r_o, r_o, r_o));
    (0xBD, (r_o, r_o, r_o));
    (0xBE, (r_o, r_o, r_o));
    (0xBF, (r_o, r_na, r_o));
    (0xC0, (r_o, r_o, r_o))]);
  (* objects_mra.py:408-476 *)
  ("Storage battery", 0x02, 0x7D, [
    (0x83, (r_o, r_na, r_o));
    (0x97, (r_r, r_o, r_o));
    (0x98, (r_r, r_o, r_o));
    (0xA0, (r_r, r_na, r_o));
    (0xA1, (r_r, r_na, r_o));
    (0xA2, (r_r, r_na, r_o));
    (0xA3, (r_r, r_na, r_o));
    (0xA4, (r_r, r_na, r_o));
    (0xA5, (r_r, r_na, r_o));
    (0xA6, (r_o, r_o, r_o));
    (0xA7, (r_o, r_o, r_o));
    (0xA8, (r_r, r_na, r_o));
    (0xA9, (r_r, r_na, r_o));
    (0xAA, (r_r, r_r, r_r));
    (0xAB, (r_r, r_r, r_r));
    (0xC1, (r_r, r_o, r_r));
    (0xC2, (r_r, r_o, r_r));
    (0xC7, (r_o, r_na, r_o));
    (0xC8, (r_o, r_na, r_o));
    (0xC8, (r_r, r_na, r_o));
    (0xC9, (r_o, r_na, r_o));
    (0xC9, (r_r, r_na, r_o));
    (0xCA, (r_o, r_na, r_o));
    (0xCB, (r_o, r_na, r_o));
    (0xCC, (r_o, r_o, r_o));
    (0xCD, (r_o, r_o, r_o));
    (0xCE, (r_o, r_o, r_o));
    (0xCF, (r_r, r_na, r_r));
    (0xCF, (r_r, r_na, r_r));
    (0xD0, (r_o, r_na, r_o));
    (0xD1, (r_o, r_na, r_o));
    (0xD2, (r_o, r_na, r_o));
    (0xD3, (r_o, r_na, r_o));
    (0xD4, (r_o, r_na, r_o));
    (0xD5, (r_o, r_na, r_o));
    (0xD6, (r_o, r_na, r_o));
    (0xD7, (r_na, r_o, r_na));
    (0xD8, (r_o, r_na, r_o));
    (0xD9, (r_na, r_o, r_na));
    (0xDA, (r_r, r_r, r_r));
    (0xDA, (r_r, r_r, r_r));
    (0xDA, (r_r, r_r, r_r));
    (0xDA, (r_r, r_r, r_r));
    (0xDB, (r_o, r_na, r_o));
    (0xDB, (r_r, r_na, r_o));
    (0xDC, (r_o, r_na, r_o));
    (0xDD, (r_o, r_na, r_o));
    (0xDE, (r_o, r_na, r_o));
    (0xDF, (r_o, r_na, r_o));
    (0xE0, (r_o, r_o, r_o));
    (0xE0, (r_o, r_o, r_o));
    (0xE1, (r_o, r_o, r_o));
    (0xE1, (r_o, r_o, r_o));
    (0xE2, (r_rc, r_na, r_o));
    (0xE3, (r_rc, r_na, r_o));
    (0xE4, (r_rc, r_na, r_o));
    (0xE5, (r_o, r_na, r_o));
    (0xE6, (r_r, r_na, r_o));
    (0xE7, (r_o, r_o, r_o));
    (0xE8, (r_o, r_o, r_o));
    (0xE9, (r_o, r_o, r_o));
    (0xEA, (r_o, r_o, r_o));
    (0xEB, (r_o, r_o, r_o));
    (0xEC, (r_o, r_o, r_o));
    (0xED, (r_o, r_o, r_o));
    (0xEE, (r_o, r_o, r_o));
    (0xEF, (r_o, r_na, r_o))]);
  (* objects_mra.py:479-488 *)
  ("Package-type commercial air conditioner (indoor unit) (except those for facilities)", 0x01, 0x56, [
    (0x80, (r_r, r_r, r_r));
    (0xAC, (r_r, r_na, r_o));
    (0xAE, (r_r, r_na, r_o));
    (0xB0, (r_r, r_r, r_r));
    (0xB3, (r_r, r_r, r_r));
    (0xBB, (r_o, r_na, r_o));
    (0xCA, (r_r, r_na, r_o));
    (0xDB, (r_o, r_na, r_o))]);
  (* objects_mra.py:491-501 *)
  ("Rice cooker", 0x03, 0xBB, [
    (0x90, (r_o, r_o, r_o));
    (0x91, (r_o, r_o, r_o));
    (0x92, (r_o, r_o, r_o));
    (0xB0, (r_o, r_na, r_o));
    (0xB1, (r_r, r_na, r_o));
    (0xB2, (r_ro, r_ro, r_o));
    (0xE1, (r_o, r_o, r_o));
    (0xE5, (r_o, r_na, r_o));
    (0xE6, (r_o, r_na, r_o))]);
  (* objects_mra.py:504-527 *)
  ("High-voltage smart electric energy meter", 0x02, 0x8A, [
    (0xC1, (r_r, r_na, r_o));
    (0xC2, (r_o, r_na, r_o));
    (0xC3, (r_r, r_na, r_o));
    (0xC4, (r_r, r_na, r_o));
    (0xC5, (r_r, r_na, r_o));
    (0xC6, (r_r, r_na, r_o));
    (0xC7, (r_o, r_na, r_o));
    (0xCA, (r_o, r_na, r_o));
    (0xCB, (r_o, r_na, r_o));
    (0xCC, (r_o, r_na, r_o));
    (0xCD, (r_o, r_na, r_o));
    (0xCE, (r_o, r_na, r_o));
    (0xD3, (r_r, r_na, r_o));
    (0xD4, (r_r, r_na, r_o));
    (0xE0, (r_r, r_na, r_o));
    (0xE1, (r_r, r_r, r_o));
    (0xE2, (r_r, r_na, r_o));
    (0xE3, (r_r, r_na, r_o));
    (0xE4, (r_o, r_na, r_o));
    (0xE5, (r_r, r_na, r_o));
    (0xE6, (r_r, r_na, r_o));
    (0xE7, (r_r, r_na, r_o))]);
  (* objects_mra.py:530-540 *)
  ("Cooking heater", 0x03, 0xB9, [
    (0x96, (r_o, r_o, r_o));
    (0xA1, (r_o, r_o, r_o));
    (0xA2, (r_o, r_o, r_o));
    (0xB1, (r_r, r_na, r_o));
    (0xB2, (r_o, r_o, r_o));
    (0xB3, (r_na, r_ro, r_o));
    (0xE0, (r_o, r_o, r_o));
    (0xE3, (r_o, r_o, r_o));
    (0xE7, (r_o, r_o, r_o))]);
  (* objects_mra.py:543-547 *)
  ("VOC sensor", 0x00, 0x1D, [
    (0xB0, (r_o, r_o, r_o));
    (0xB1, (r_o, r_na, r_r));
    (0xE0, (r_r, r_na, r_o))]);
  (* objects_mra.py:550-574 *)
  ("Bathroom heater dryer", 0x02, 0x73, [
    (0x90, (r_o, r_o, r_o));
    (0x91, (r_o, r_o, r_o));
    (0x92, (r_o, r_o, r_o));
    (0x94, (r_o, r_o, r_o));
    (0x95, (r_o, r_o, r_o));
    (0x96, (r_o, r_o, r_o));
    (0xB0, (r_r, r_r, r_o));
    (0xB0, (r_r, r_r, r_o));
    (0xB1, (r_o, r_o, r_o));
    (0xB2, (r_r, r_r, r_o));
    (0xB2, (r_o, r_o, r_o));
    (0xB3, (r_o, r_o, r_o));
    (0xB4, (r_r, r_r, r_o));
    (0xB5, (r_o, r_o, r_o));
    (0xB6, (r_o, r_o, r_o));
    (0xB7, (r_o, r_o, r_o));
    (0xBA, (r_o, r_na, r_o));
    (0xBB, (r_o, r_na, r_o));
    (0xC2, (r_o, r_o, r_o));
    (0xCF, (r_o, r_o, r_o));
    (0xE0, (r_o, r_na, r_o));
    (0xE1, (r_o, r_o, r_o));
    (0xE1, (r_o, r_o, r_o))]);
  (* objects_mra.py:577-585 *)
  ("Commercial show case outdoor unit", 0x03, 0xD4, [
    (0xAA, (r_o, r_na, r_o));
    (0xB0, (r_r, r_r, r_r));
    (0xB0, (r_r, r_r, r_r));
    (0xBE, (r_o, r_na, r_o));
    (0xCA, (r_o, r_o, r_o));
    (0xCA, (r_r, r_o, r_o));
    (0xE2, (r_o, r_o, r_o))]);
  (* objects_mra.py:588-615 *)
  ("Fuel cell", 0x02, 0x7C, [
    (0xC1, (r_o, r_na, r_o));
    (0xC2, (r_o, r_na, r_o));
    (0xC2, (r_r, r_na, r_o));
    (0xC3, (r_o, r_na, r_o));
    (0xC4, (r_r, r_na, r_o));
    (0xC5, (r_r, r_na, r_o));
    (0xC6, (r_na, r_o, r_na));
    (0xC6, (r_na, r_o, r_na));
    (0xC7, (r_o, r_na, r_o));
    (0xC8, (r_o, r_na, r_o));
    (0xC9, (r_na, r_o, r_na));
    (0xCA, (r_na, r_o, r_o));
    (0xCA, (r_o, r_o, r_o));
    (0xCB, (r_o, r_na, r_o));
    (0xCB, (r_r, r_na, r_r));
    (0xCC, (r_o, r_na, r_o));
    (0xCD, (r_o, r_na, r_o));
    (0xCD, (r_o, r_na, r_o));
    (0xCE, (r_na, r_o, r_na));
    (0xCE, (r_na, r_o, r_na));
    (0xD0, (r_o, r_na, r_o));
    (0xD0, (r_r, r_na, r_o));
    (0xD1, (r_r, r_r, r_o));
    (0xD2, (r_r, r_r, r_o));
    (0xE1, (r_o, r_na, r_o));
    (0xE2, (r_o, r_na, r_o))]);
  (* objects_mra.py:618-629 *)
  ("Water flowmeter", 0x02, 0x81, [
    (0xD0, (r_o, r_o, r_o));
    (0xD1, (r_o, r_o, r_o));
    (0xE0, (r_r, r_na, r_o));
    (0xE1, (r_r, r_na, r_o));
    (0xE2, (r_o, r_na, r_o));
    (0xE3, (r_o, r_na, r_r));
    (0xE4, (r_o, r_na, r_o));
    (0xE5, (r_o, r_o, r_o));
    (0xE6, (r_o, r_o, r_o));
    (0xE7, (r_o, r_na, r_o))]);
  (* objects_mra.py:632-682 *)
  ("Home air conditioner", 0x01, 0x30, [
    (0x80, (r_r, r_r, r_r));
    (0x8F, (r_r, r_r, r_r));
    (0x90, (r_o, r_o, r_o));
    (0x91, (r_o, r_o, r_o));
    (0x92, (r_o, r_o, r_o));
    (0x94, (r_o, r_o, r_o));
    (0x95, (r_o, r_o, r_o));
    (0x96, (r_o, r_o, r_o));
    (0xA0, (r_o, r_o, r_o));
    (0xA0, (r_r, r_r, r_r));
    (0xA1, (r_o, r_o, r_o));
    (0xA3, (r_o, r_o, r_o));
    (0xA4, (r_o, r_o, r_o));
    (0xA5, (r_o, r_o, r_o));
    (0xAA, (r_o, r_na, r_o));
    (0xAB, (r_o, r_na, r_o));
    (0xB0, (r_r, r_r, r_r));
    (0xB1, (r_o, r_o, r_o));
    (0xB2, (r_o, r_o, r_o));
    (0xB3, (r_r, r_r, r_o));
    (0xB4, (r_o, r_o, r_o));
    (0xB5, (r_o, r_o, r_o));
    (0xB6, (r_o, r_o, r_o));
    (0xB7, (r_o, r_o, r_o));
    (0xB8, (r_o, r_na, r_o));
    (0xB9, (r_o, r_na, r_o));
    (0xBA, (r_o, r_na, r_o));
    (0xBB, (r_o, r_na, r_o));
    (0xBB, (r_r, r_na, r_o));
    (0xBC, (r_o, r_na, r_o));
    (0xBD, (r_o, r_na, r_o));
    (0xBE, (r_o, r_na, r_o));
    (0xBF, (r_o, r_o, r_o));
    (0xC0, (r_o, r_o, r_o));
    (0xC1, (r_o, r_o, r_o));
    (0xC2, (r_o, r_o, r_o));
    (0xC4, (r_o, r_o, r_o));
    (0xC6, (r_o, r_na, r_o));
    (0xC7, (r_o, r_o, r_o));
    (0xC8, (r_o, r_na, r_o));
    (0xC9, (r_o, r_o, r_o));
    (0xCA, (r_o, r_na, r_o));
    (0xCB, (r_o, r_o, r_o));
    (0xCC, (r_o, r_o, r_o));
    (0xCD, (r_o, r_na, r_o));
    (0xCE, (r_na, r_o, r_na));
    (0xCE, (r_o, r_o, r_o));
    (0xCF, (r_o, r_o, r_o));
    (0xD0, (r_na, r_o, r_na))]);
  (* objects_mra.py:685-693 *)
  ("Electric energy sensor", 0x00, 0x22, [
    (0xE0, (r_r, r_na, r_o));
    (0xE1, (r_o, r_na, r_o));
    (0xE2, (r_o, r_na, r_o));
    (0xE3, (r_o, r_na, r_o));
    (0xE4, (r_o, r_na, r_o));
    (0xE4, (r_o, r_na, r_o));
    (0xE5, (r_o, r_na, r_o))]);
  (* objects_mra.py:696-729 *)
  ("Washer and dryer", 0x03, 0xD3, [
    (0x90, (r_o, r_o, r_o));
    (0x91, (r_o, r_o, r_o));
    (0x92, (r_o, r_o, r_o));
    (0xB0, (r_o, r_na, r_o));
    (0xB2, (r_o, r_o, r_o));
    (0xD0, (r_o, r_o, r_o));
    (0xD1, (r_o, r_o, r_o));
    (0xD2, (r_o, r_o, r_o));
    (0xD3, (r_o, r_na, r_o));
    (0xD4, (r_o, r_na, r_o));
    (0xD5, (r_o, r_na, r_o));
    (0xD6, (r_o, r_o, r_o));
    (0xD7, (r_o, r_o, r_o));
    (0xD8, (r_o, r_o, r_o));
    (0xDB, (r_o, r_na, r_o));
    (0xDC, (r_o, r_na, r_o));
    (0xDF, (r_o, r_na, r_o));
    (0xE1, (r_o, r_o, r_o));
    (0xE2, (r_o, r_na, r_o));
    (0xE3, (r_o, r_o, r_o));
    (0xE4, (r_o, r_o, r_o));
    (0xE5, (r_o, r_o, r_o));
    (0xE6, (r_o, r_o, r_o));
    (0xE7, (r_o, r_o, r_o));
    (0xE8, (r_o, r_o, r_o));
    (0xE9, (r_o, r_o, r_o));
    (0xEA, (r_o, r_o, r_o));
    (0xEB, (r_o, r_o, r_o));
    (0xEC, (r_o, r_o, r_o));
    (0xED, (r_o, r_na, r_o));
    (0xEE, (r_o, r_o, r_o));
    (0xEF, (r_o, r_na, r_o))]);
  (* objects_mra.py:732-749 *)
  ("Electrically operated rain sliding door/shutter", 0x02, 0x63, [
    (0x89, (r_o, r_na, r_r));
    (0x90, (r_o, r_o, r_r));
    (0xD0, (r_o, r_o, r_o));
    (0xD1, (r_o, r_o, r_o));
    (0xD2, (r_o, r_o, r_o));
    (0xE0, (r_r, r_r, r_r));
    (0xE1, (r_o, r_o, r_o));
    (0xE2, (r_o, r_o, r_o));
    (0xE3, (r_o, r_o, r_o));
    (0xE5, (r_o, r_o, r_o));
    (0xE8, (r_o, r_na, r_r));
    (0xE9, (r_o, r_o, r_r));
    (0xEA, (r_o, r_na, r_r));
    (0xED, (r_o, r_o, r_o));
    (0xEE, (r_o, r_o, r_o));
    (0xEF, (r_o, r_o, r_o))]);
  (* objects_mra.py:752-754 *)
  ("CO2 sensor", 0x00, 0x1B, [
    (0xE0, (r_r, r_na, r_o))]);
  (* objects_mra.py:757-761 *)
  ("Current sensor", 0x00, 0x23, [
    (0xE0, (r_rc, r_na, r_o));
    (0xE1, (r_o, r_na, r_o));
    (0xE2, (r_rc, r_na, r_o))]);
  (* objects_mra.py:764-786 *)
  ("EV Charger", 0x02, 0xA1, [
    (0xC5, (r_r, r_na, r_o));
    (0xC7, (r_r, r_na, r_r));
    (0xC7, (r_r, r_na, r_r));
    (0xC8, (r_o, r_na, r_o));
    (0xCA, (r_o, r_na, r_o));
    (0xCC, (r_r, r_na, r_o));
    (0xCD, (r_na, r_r, r_o));
    (0xCE, (r_r, r_na, r_o));
    (0xCF, (r_r, r_na, r_o));
    (0xD0, (r_r, r_na, r_o));
    (0xD2, (r_o, r_na, r_o));
    (0xD3, (r_o, r_na, r_o));
    (0xD8, (r_o, r_na, r_o));
    (0xD9, (r_na, r_o, r_na));
    (0xDA, (r_r, r_r, r_r));
    (0xE2, (r_r, r_na, r_o));
    (0xE4, (r_r, r_na, r_o));
    (0xE6, (r_r, r_na, r_o));
    (0xE7, (r_o, r_o, r_o));
    (0xEB, (r_o, r_o, r_o));
    (0xED, (r_o, r_o, r_o))]);
  (* objects_mra.py:789-793 *)
  ("Watt-hour meter", 0x02, 0x80, [
    (0xE0, (r_r, r_na, r_o));
    (0xE2, (r_r, r_na, r_o));
    (0xE3, (r_o, r_na, r_o))]);
  (* objects_mra.py:796-799 *)
  ("Emergency button", 0x00, 0x03, [
    (0xB1, (r_r, r_na, r_r));
    (0xBF, (r_na, r_o, r_na))]);
  (* objects_mra.py:802-833 *)
  ("Household solar power generation", 0x02, 0x79, [
    (0x83, (r_r, r_na, r_o));
    (0x97, (r_rc, r_o, r_o));
    (0x98, (r_rc, r_o, r_o));
    (0xA0, (r_rc, r_rc, r_o));
    (0xA1, (r_rc, r_rc, r_o));
    (0xA2, (r_rc, r_o, r_o));
    (0xB0, (r_rc, r_na, r_o));
    (0xB1, (r_rc, r_na, r_r));
    (0xB2, (r_rc, r_na, r_o));
    (0xB3, (r_o, r_na, r_o));
    (0xB4, (r_rc, r_na, r_o));
    (0xC0, (r_o, r_na, r_o));
    (0xC1, (r_r, r_r, r_o));
    (0xC2, (r_r, r_na, r_o));
    (0xC3, (r_rc, r_na, r_o));
    (0xC4, (r_rc, r_na, r_o));
    (0xD0, (r_o, r_na, r_o));
    (0xD0, (r_r, r_na, r_o));
    (0xD1, (r_r, r_na, r_o));
    (0xE0, (r_r, r_na, r_o));
    (0xE1, (r_r, r_na, r_o));
    (0xE2, (r_na, r_o, r_na));
    (0xE3, (r_o, r_na, r_o));
    (0xE4, (r_na, r_o, r_na));
    (0xE5, (r_o, r_o, r_o));
    (0xE6, (r_o, r_o, r_o));
    (0xE7, (r_o, r_o, r_o));
    (0xE8, (r_o, r_o, r_o));
    (0xE8, (r_r, r_o, r_o));
    (0xE9, (r_o, r_o, r_o))]);
  (* objects_mra.py:836-857 *)
  ("Floor heater", 0x02, 0x7B, [
    (0x80, (r_r, r_r, r_r));
    (0x90, (r_o, r_o, r_o));
    (0x91, (r_o, r_o, r_o));
    (0x92, (r_o, r_o, r_o));
    (0x94, (r_o, r_o, r_o));
    (0x95, (r_o, r_o, r_o));
    (0x96, (r_o, r_o, r_o));
    (0xD1, (r_o, r_na, r_r));
    (0xE0, (r_rc, r_rc, r_o));
    (0xE1, (r_rc, r_rc, r_o));
    (0xE2, (r_o, r_na, r_o));
    (0xE3, (r_o, r_na, r_o));
    (0xE3, (r_o, r_na, r_o));
    (0xE4, (r_o, r_o, r_o));
    (0xE5, (r_o, r_o, r_o));
    (0xE6, (r_o, r_o, r_o));
    (0xE7, (r_o, r_o, r_o));
    (0xE8, (r_o, r_o, r_o));
    (0xE9, (r_o, r_na, r_o));
    (0xEA, (r_o, r_na, r_o))]);
  (* objects_mra.py:860-863 *)
  ("Bath heating status sensor", 0x00, 0x16, [
    (0xB0, (r_o, r_o, r_o));
    (0xB1, (r_r, r_na, r_r))]);
  (* objects_mra.py:866-886 *)
  ("Cold or hot water heat source equipment", 0x02, 0x7A, [
    (0x90, (r_o, r_o, r_o));
    (0x91, (r_o, r_o, r_o));
    (0x92, (r_o, r_o, r_o));
    (0x94, (r_o, r_o, r_o));
    (0x95, (r_o, r_o, r_o));
    (0x96, (r_o, r_o, r_o));
    (0xD1, (r_o, r_o, r_r));
    (0xD2, (r_o, r_o, r_r));
    (0xE0, (r_o, r_o, r_o));
    (0xE1, (r_rc, r_rc, r_o));
    (0xE2, (r_rc, r_rc, r_o));
    (0xE3, (r_o, r_na, r_o));
    (0xE4, (r_o, r_na, r_o));
    (0xE5, (r_o, r_o, r_o));
    (0xE6, (r_o, r_o, r_o));
    (0xE7, (r_o, r_o, r_o));
    (0xE8, (r_o, r_o, r_o));
    (0xE9, (r_o, r_na, r_o));
    (0xEA, (r_o, r_na, r_o))]);
  (* objects_mra.py:889-905 *)
  ("Smart electric energy meter for sub-metering", 0x02, 0x8D, [
    (0xD3, (r_o, r_na, r_o));
    (0xD4, (r_r, r_na, r_o));
    (0xD7, (r_r, r_na, r_o));
    (0xD8, (r_o, r_na, r_o));
    (0xD9, (r_o, r_na, r_o));
    (0xE0, (r_r, r_r, r_o));
    (0xE1, (r_r, r_na, r_o));
    (0xE2, (r_r, r_na, r_o));
    (0xE3, (r_r, r_na, r_o));
    (0xE4, (r_r, r_na, r_o));
    (0xE7, (r_r, r_na, r_o));
    (0xE8, (r_r, r_na, r_o));
    (0xE9, (r_o, r_na, r_o));
    (0xEA, (r_r, r_na, r_o));
    (0xEB, (r_r, r_na, r_o))]);
  (* objects_mra.py:908-912 *)
  ("Lighting system", 0x02, 0xA3, [
    (0xB0, (r_o, r_o, r_o));
    (0xC0, (r_r, r_r, r_o));
    (0xC1, (r_r, r_na, r_o))]);
  (* objects_mra.py:915-919 *)
  ("Ventilation fan", 0x01, 0x33, [
    (0x80, (r_r, r_r, r_r));
    (0xA0, (r_o, r_o, r_o));
    (0xBF, (r_o, r_o, r_o))]);
  (* objects_mra.py:922-944 *)
  ("distributed generator's electric energy meter", 0x02, 0x8E, [
    (0x98, (r_rc, r_o, r_o));
    (0xD0, (r_r, r_na, r_o));
    (0xD1, (r_r, r_na, r_o));
    (0xD2, (r_r, r_na, r_o));
    (0xD3, (r_r, r_na, r_o));
    (0xD4, (r_r, r_na, r_o));
    (0xD5, (r_rc, r_r, r_o));
    (0xD6, (r_o, r_na, r_o));
    (0xDA, (r_rc, r_o, r_o));
    (0xDB, (r_r, r_na, r_o));
    (0xE0, (r_rc, r_na, r_o));
    (0xE1, (r_rc, r_na, r_o));
    (0xE2, (r_rc, r_na, r_o));
    (0xE3, (r_rc, r_na, r_o));
    (0xE4, (r_o, r_na, r_o));
    (0xE5, (r_o, r_na, r_o));
    (0xE6, (r_rc, r_na, r_o));
    (0xE7, (r_rc, r_na, r_o));
    (0xE8, (r_o, r_na, r_o));
    (0xE9, (r_o, r_na, r_o));
    (0xEA, (r_o, r_na, r_o))]);
  (* objects_mra.py:947-956 *)
  ("Electric lock", 0x02, 0x6F, [
    (0xE0, (r_r, r_r, r_r));
    (0xE1, (r_o, r_o, r_o));
    (0xE2, (r_o, r_na, r_o));
    (0xE3, (r_o, r_na, r_o));
    (0xE4, (r_o, r_na, r_o));
    (0xE5, (r_o, r_na, r_r));
    (0xE6, (r_o, r_o, r_o));
    (0xE7, (r_o, r_o, r_r))]);
  (* objects_mra.py:959-962 *)
  ("Gas meter", 0x02, 0x82, [
    (0xE0, (r_r, r_na, r_o));
    (0xE2, (r_o, r_na, r_o))]);
  (* objects_mra.py:965-988 *)
  ("Air conditioner ventilation fan", 0x01, 0x34, [
    (0x80, (r_r, r_r, r_r));
    (0xA0, (r_o, r_o, r_o));
    (0xB0, (r_o, r_o, r_o));
    (0xB1, (r_o, r_o, r_o));
    (0xB2, (r_o, r_o, r_r));
    (0xB3, (r_o, r_o, r_o));
    (0xB4, (r_o, r_o, r_o));
    (0xB9, (r_o, r_na, r_o));
    (0xBA, (r_o, r_na, r_o));
    (0xBE, (r_o, r_na, r_o));
    (0xBF, (r_o, r_o, r_o));
    (0xC0, (r_o, r_na, r_o));
    (0xC1, (r_o, r_na, r_o));
    (0xC2, (r_o, r_na, r_o));
    (0xCA, (r_o, r_na, r_o));
    (0xD0, (r_o, r_na, r_o));
    (0xD1, (r_o, r_na, r_o));
    (0xD2, (r_o, r_na, r_o));
    (0xD3, (r_o, r_na, r_o));
    (0xD4, (r_o, r_na, r_o));
    (0xD5, (r_o, r_na, r_o));
    (0xE0, (r_o, r_o, r_o))]);
  (* objects_mra.py:991-1014 *)
  ("Controller", 0x05, 0xFF, [
    (0xC0, (r_o, r_na, r_o));
    (0xC1, (r_o, r_na, r_o));
    (0xC2, (r_o, r_o, r_o));
    (0xC3, (r_o, r_na, r_o));
    (0xC4, (r_o, r_na, r_o));
    (0xC5, (r_o, r_na, r_o));
    (0xC6, (r_o, r_na, r_o));
    (0xC7, (r_o, r_na, r_o));
    (0xC7, (r_o, r_na, r_o));
    (0xC8, (r_o, r_na, r_o));
    (0xC8, (r_o, r_na, r_o));
    (0xC9, (r_o, r_na, r_o));
    (0xC9, (r_o, r_na, r_o));
    (0xCA, (r_o, r_na, r_o));
    (0xCA, (r_o, r_na, r_o));
    (0xCB, (r_o, r_na, r_o));
    (0xCB, (r_o, r_na, r_o));
    (0xCC, (r_o, r_na, r_o));
    (0xCD, (r_o, r_na, r_o));
    (0xCE, (r_o, r_na, r_o));
    (0xCF, (r_o, r_na, r_o));
    (0xE0, (r_o, r_na, r_o))]);
  (* objects_mra.py:1017-1027 *)
  ("Extended lighting system", 0x02, 0xA4, [
    (0xB0, (r_o, r_o, r_o));
    (0xC0, (r_r, r_r, r_o));
    (0xC1, (r_r, r_na, r_o));
    (0xC2, (r_r, r_na, r_o));
    (0xC3, (r_r, r_na, r_o));
    (0xC4, (r_r, r_na, r_o));
    (0xC5, (r_r, r_r, r_o));
    (0xC6, (r_o, r_o, r_o));
    (0xC7, (r_o, r_o, r_o))]);
  (* objects_mra.py:1030-1032 *)
  ("Temperature sensor", 0x00, 0x11, [
    (0xE0, (r_r, r_na, r_o))]);
  (* objects_mra.py:1035-1038 *)
  ("Human detection sensor", 0x00, 0x07, [
    (0xB0, (r_o, r_o, r_o));
    (0xB1, (r_r, r_na, r_r))]);
  (* objects_mra.py:1041-1076 *)
  ("Refrigerator", 0x03, 0xB7, [
    (0xA0, (r_o, r_o, r_o));
    (0xA1, (r_o, r_o, r_o));
    (0xA4, (r_o, r_o, r_o));
    (0xA5, (r_o, r_na, r_o));
    (0xA6, (r_o, r_na, r_o));
    (0xA8, (r_o, r_o, r_o));
    (0xA9, (r_o, r_o, r_o));
    (0xAD, (r_o, r_o, r_o));
    (0xB0, (r_ro, r_na, r_o));
    (0xB1, (r_o, r_na, r_r));
    (0xB2, (r_o, r_na, r_o));
    (0xB3, (r_o, r_na, r_o));
    (0xB4, (r_o, r_na, r_o));
    (0xB5, (r_o, r_na, r_o));
    (0xB6, (r_o, r_na, r_o));
    (0xD1, (r_o, r_na, r_o));
    (0xD2, (r_o, r_na, r_o));
    (0xD3, (r_o, r_na, r_o));
    (0xD4, (r_o, r_na, r_o));
    (0xD5, (r_o, r_na, r_o));
    (0xD8, (r_o, r_na, r_o));
    (0xDA, (r_o, r_na, r_o));
    (0xDC, (r_o, r_na, r_o));
    (0xE0, (r_o, r_na, r_o));
    (0xE2, (r_o, r_o, r_o));
    (0xE3, (r_o, r_o, r_o));
    (0xE4, (r_o, r_o, r_o));
    (0xE5, (r_o, r_o, r_o));
    (0xE6, (r_o, r_o, r_o));
    (0xE9, (r_o, r_o, r_o));
    (0xEA, (r_o, r_o, r_o));
    (0xEB, (r_o, r_o, r_o));
    (0xEC, (r_o, r_o, r_o));
    (0xED, (r_o, r_o, r_o))]);
  (* objects_mra.py:1079-1086 *)
  ("Air cleaner", 0x01, 0x35, [
    (0x80, (r_r, r_r, r_r));
    (0xA0, (r_o, r_o, r_o));
    (0xC0, (r_o, r_na, r_o));
    (0xC1, (r_o, r_na, r_o));
    (0xC2, (r_o, r_o, r_o));
    (0xE1, (r_o, r_na, r_o))]);
  (* objects_mra.py:1089-1104 *)
  ("Low-voltage smart electric energy meter", 0x02, 0x88, [
    (0xD3, (r_o, r_na, r_o));
    (0xD7, (r_r, r_na, r_o));
    (0xE0, (r_r, r_na, r_o));
    (0xE1, (r_r, r_na, r_o));
    (0xE2, (r_r, r_na, r_o));
    (0xE3, (r_rc, r_na, r_o));
    (0xE4, (r_rc, r_na, r_o));
    (0xE5, (r_r, r_r, r_o));
    (0xE7, (r_r, r_na, r_o));
    (0xE8, (r_r, r_na, r_o));
    (0xEA, (r_r, r_na, r_o));
    (0xEB, (r_rc, r_na, r_o));
    (0xEC, (r_o, r_na, r_o));
    (0xED, (r_o, r_o, r_o))])
].

(** (key = code, name), uecho/std/manufacturers.py:28-246. *)
Definition manufacturer_table : list (Z * string) := [
  (0x00002F, "AIPHONE CO., LTD.");
  (0x00011A, "ACCESS CO.,LTD.");
  (0x00002C, "AFT CO.,LTD");
  (0x000068, "AISIN CORPORATION");
  (0x000079, "Anritsu Engineering Co.,Ltd,");
  (0x00007F, "ANRITSU CUSTOMER SUPPORT CO., LTD.");
  (0x000110, "ASUKA SOLUTION COMPANY LIMITED");
  (0x000096, "Azbil Corporation");
  (0x0000FD, "Bellnix Co.,LTD");
  (0x00006F, "BUFFALO INC.");
  (0x0000B6, "Bunka Shutter Co., Ltd");
  (0x0000D2, "CHOFUKOSAN.Co.Ltd");
  (0x000088, "CHOFU SEISAKUSHO CO.,LTD.");
  (0x0000D5, "Choshu Industry Co., Ltd.");
  (0x0000A3, "Chubu Electric Power Grid Co.,Inc.");
  (0x0000FB, "CICO CORPORATION");
  (0x0000F8, "CIMX INITIATIVE INC.");
  (0x000123, "Contec Co., Ltd.");
  (0x000130, "COOLDESIGN Corporation");
  (0x000067, "CORONA CORPORATION");
  (0x00009C, "Diamond Electric Mfg.Co.,Ltd.");
  (0x000080, "DIAMOND&ZEBRA ELECTRIC MFG.CO.,LTD.");
  (0x000119, "DAIHEN Corporation");
  (0x000008, "DAIKIN INDUSTRIES,LTD.");
  (0x000015, "Daikin Systems&Solutions Laboratory Ltd.");
  (0x00004F, "Daiwa House Industry co.,Ltd");
  (0x000103, "Data Technology Inc.");
  (0x0000E3, "DDL Co.,Ltd");
  (0x0000AD, "Delta Electronics (Japan), Inc.");
  (0x0000BE, "DENKEN Co.,Ltd.");
  (0x0000F4, "DENSO AIRCOOL CORPORATION");
  (0x00003C, "DENSO Corporation");
  (0x000109, "DENSO Co.,LTD.");
  (0x00012B, "DENSO WAVE INCORPORATED");
  (0x000113, "EBARA JITSUGYO POWER CO., LTD.");
  (0x000057, "ELIIYPower Co.,ltd");
  (0x00012E, "Eneres Co.,Ltd.");
  (0x000041, "ENEGATE CO.,LTD.");
  (0x00010A, "ENERGY GAP CORPORATION");
  (0x0000F3, "Energy Gateway, Inc");
  (0x0000F2, "Energy Solutions Inc.");
  (0x000072, "Eneres Co.,Ltd.");
  (0x0000DD, "EneStone Corporation");
  (0x000132, "EX4Energy, Inc.");
  (0x000055, "FAMILYNET JAPAN CORPORATION");
  (0x0000F6, "Field Logic Inc.");
  (0x00012F, "FORMOSA BIO AND ENERGY CORP JAPAN");
  (0x0000CB, "Fuji Electric Co.,Ltd");
  (0x0000FC, "FUJI INDUSTRIAL CO.,Ltd.");
  (0x000051, "Fuji IT Co.,Ltd.");
  (0x00008A, "FUJITSU GENERAL LIMITED");
  (0x00004E, "FUJITSU LIMITED");
  (0x000090, "Fujitsu Component Limited");
  (0x0000DE, "FUJIFILM Business Innovation Japan Corp");
  (0x000097, "Future Technology Laboratories, Inc.");
  (0x00009B, "GASTAR Co.,Ltd");
  (0x00008F, "Glamo Inc.");
  (0x000129, "GoodWe Japan K.K");
  (0x00009F, "GS Yuasa International Ltd");
  (0x000122, "Hanwha Q CELLS Japan CO.,LTD.");
  (0x000001, "Hitachi, Ltd.");
  (0x000022, "Hitachi Global Life Solutions, Inc.");
  (0x000040, "Hitachi High-Tech Solutions Corporation");
  (0x000044, "Hitachi Industrial Equipment Systems Co.,Ltd.");
  (0x0000CC, "Hitachi-Johnson Controls Air Conditioning,Inc.");
  (0x0000E5, "Hitachi Power Solutions Co.,Ltd.");
  (0x0000E6, "Hokkaido Electrical Safety Services Foundation");
  (0x0000B8, "Hokkaido Electric Power Co.,Inc.");
  (0x0000BB, "Hokuriku Electric Power Transmission & Distribution Company");
  (0x0000A1, "Honda R&D Co., Ltd.");
  (0x000115, "HUAWEI TECHNOLOGIES JAPAN K.K.");
  (0x0000AC, "IDEC COROPRATION");
  (0x00004D, "INABA DENKI SANGYO CO.,LTD.");
  (0x000056, "iND Co.,Ltd");
  (0x0000ED, "INFINI Co. LTD");
  (0x000124, "INTEC Inc.");
  (0x0000B1, "Internet Initiative Japan Inc.");
  (0x000087, "I-O DATA DEVICE,INC.");
  (0x00006B, "ISB Corporation");
  (0x00010F, "Iwatani Corporation");
  (0x000081, "IWATSU ELECTRIC CO., LTD.");
  (0x0000C3, "Japan Electric Meters Inspection Corporation");
  (0x0000F7, "JCity,Inc.");
  (0x0000CA, "JSP CO.,LTD.");
  (0x0000D7, "Kaga Electronics co.,ltd.");
  (0x000077, "Kanagawa Institute of Technology");
  (0x000063, "Kawamura Electric Inc.");
  (0x0000F0, "KANEKA CORPORATION");
  (0x00010B, "KITANIHON ELECTRIC CABLE CO.,LTD.");
  (0x0000E8, "KOIZUMI LIGHTING TECHNOLOGY CORP.");
  (0x00003B, "KYOCERA Corporation");
  (0x00008C, "Kyuden Technosystems Corporation");
  (0x0000BF, "KYUSHU ELECTRIC POWER TRANSMISSION AND DISTRIBUTION CO.,INC.");
  (0x0000F1, "Laplace Systems Co., Ltd.");
  (0x000125, "LiveSmart KK");
  (0x000025, "LIXIL Corporation");
  (0x0000E0, "Looop Inc");
  (0x00010C, "MAX CO., LTD.");
  (0x000078, "Maxell, Ltd.");
  (0x000058, "Mediotec Corporation");
  (0x000120, "Meisei electric co.,ltd.");
  (0x000083, "Melco Techno Yokohama Corporation");
  (0x000006, "Mitsubishi Electric Corp.");
  (0x000034, "MITSUBISHI ELECTRIC ENGINEERING COMPANY LIMITED");
  (0x000105, "Mitsubishi Electric Lighting Corporation");
  (0x00012A, "Monochrome Inc.");
  (0x00011D, "mui Lab, Inc.");
  (0x0000D4, "Murata Manufacturing Co.,Ltd.");
  (0x0000B0, "NALTEC, Inc.");
  (0x000106, "Nature Inc.");
  (0x000009, "NEC Corp.");
  (0x000118, "NEC Magnus Communications, Ltd");
  (0x000073, "NEC Platforms, Ltd.");
  (0x000091, "NEC Platforms, Ltd.");
  (0x0000E2, "NextDrive Inc.");
  (0x000104, "Next Energy & Resources Co., Ltd.");
  (0x0000B2, "NF Blossom Technologies, Inc.");
  (0x0000A5, "Nichibei Co., Ltd.");
  (0x00006C, "NICHICON CORPORATION");
  (0x0000EB, "NICHICON (KAMEOKA) CORPORATION");
  (0x000102, "NICHICON (KUSATSU) CORPORATION");
  (0x000112, "NICHIEI INTEC CO., LTD");
  (0x000071, "NIHON SANGYO CO.,LTD.");
  (0x0000DC, "NIHON TECHNO CO.,LTD.");
  (0x00008D, "NIPPON TELEGRAPH AND TELEPHONE CORPORATION");
  (0x000047, "NIPPON TELEGRAPH AND TELEPHONE EAST CORPORATION");
  (0x000086, "NIPPON TELEGRAPH AND TELEPHONE WEST CORPORATION");
  (0x000036, "NISSIN SYSTEMS CO., LTD.");
  (0x0000B7, "Nitto Kogyo Corporation");
  (0x000054, "NORITZ CORP.");
  (0x00007C, "NSW Inc.");
  (0x0000A0, "NTT Advanced Technology Corporation");
  (0x000023, "NTT COMWARE CORPORATION");
  (0x000061, "NTT DATA INTELLILINK CORPORATION");
  (0x0000E9, "NTT Smile Energy Inc.");
  (0x0000F5, "ODELIC CO., LTD.");
  (0x000012, "Oi Electric Co., Ltd");
  (0x00006A, "OKAYA & CO., LTD.");
  (0x000114, "OkayaKiden Co.,Ltd.");
  (0x000048, "Oki Electric Industry Co., Ltd.");
  (0x000064, "OMRON SOCIAL SOLUTIONS CO.,LTD.");
  (0x00012C, "Onamba Co., Ltd.");
  (0x0000D8, "OSAKI DATATECH CO.,LTD.");
  (0x000052, "OSAKI ELECTRIC CO.,LTD.");
  (0x000127, "Paloma Co.,Ltd.");
  (0x00000B, "Panasonic Holdings Corporation");
  (0x0000DA, "Panasonic Commercial Equipment Systems Co.,Ltd.");
  (0x0000FE, "Panasonic Ecology Systems Co.,Ltd.");
  (0x0000FA, "Plat'Home Co.");
  (0x000082, "PURPOSE CO.,LTD.");
  (0x000059, "Rinnai Corporation");
  (0x000128, "SAIKOH ENGINEERING Co.,Ltd.");
  (0x00011E, "SAKAIGAWA CO., LTD");
  (0x00011C, "SANDEN RETAIL SYSTEMS CORPORATION");
  (0x00010E, "SANIX INCORPORATED");
  (0x0000BA, "SankyoTateyama, Inc.");
  (0x0000C5, "SANWA SHUTTER CORPORATION");
  (0x000093, "SATORI ELECTRIC CO.,LTD.");
  (0x000107, "SEIKO ELECTRIC CO.,LTD.");
  (0x00003A, "SEKISUI HOUSE, LTD.");
  (0x000005, "Sharp Corp");
  (0x000131, "Shenzhen Eternalplanet Energy Pingshan Ltd.");
  (0x0000AE, "SHIKOKU ELECTRIC POWER CO.,INC.");
  (0x00002E, "SHIKOKU INSTRUMENTATION CO.,LTD");
  (0x0000CE, "SHINDENGEN ELECTRIC MANUFACTURING CO.LTD.");
  (0x00010D, "Shizen Energy Inc.");
  (0x0000A8, "Smart Power System. Co,. Ltd.");
  (0x0000DF, "SMA Japan K.K.");
  (0x000100, "Smart Solar Corporation");
  (0x00007E, "SMK Corporation");
  (0x0000E1, "SoftBank Corp.");
  (0x00011B, "SolaX Power Network Technology (Zhe jiang) Co. , Ltd.");
  (0x000060, "Sony Computer Science Laboratories, Inc.");
  (0x00006E, "Soundvision co.,ltd.");
  (0x000108, "SOUSEI Technology Inc.");
  (0x000116, "Sungrow Power Supply Co., Ltd.");
  (0x000101, "Sunpot Co., Ltd");
  (0x0000DB, "Suntech Power Japan Corporation");
  (0x00003D, "SUMITOMO ELECTRIC INDUSTRIES, LTD.");
  (0x00003E, "SUMITOMO ELECTRIC NETWORKS, INC.");
  (0x000085, "TAKAOKA TOKO CO.,LTD");
  (0x0000AF, "Takara Standard Co.,Ltd");
  (0x0000E4, "technoeye Inc.");
  (0x0000FF, "TEPCO Energy Partner, Inc.");
  (0x0000EE, "TESSERA TECHNOLOGY INC.");
  (0x0000B5, "The Chugoku Electric Power Co., Ltd");
  (0x00009A, "The Kansai Electric Power Co., Inc.");
  (0x0000CD, "TOCLAS CORPORATION");
  (0x000126, "Togami Electric Mfg.co.,Ltd.");
  (0x0000F9, "TOHO ELECTRONICS INC.");
  (0x0000C2, "Tohoku Electric Meter Industry Co.,Inc");
  (0x0000BC, "TohokuElectric Power Network Company,Incorporated");
  (0x000099, "Tokyo Electric Power Company Holdings, Inc.");
  (0x0000B3, "TOPPERS Project, Inc.");
  (0x000111, "Topre Corporation");
  (0x000017, "TOSHIBA CARRIER CORPORATION");
  (0x000016, "Toshiba Corp.");
  (0x000043, "TOSHIBA DEVELOPMENT & ENGINEERING CORPORATION");
  (0x0000EC, "Toshiba Energy Systems & Solutions Corporation");
  (0x0000D9, "Toshiba IT & Control Systems Corporation");
  (0x000069, "Toshiba Lifestyle Products & Services Corporation");
  (0x00001B, "TOSHIBA LIGHTING & TECHNOLOGY CORPORATION");
  (0x000035, "Toshiba Toko Meter Systems Co.,Ltd.");
  (0x000050, "TOTO LTD.");
  (0x0000EF, "TOYOTA INDUSTRIES CORPORATION");
  (0x000121, "TOYOTA MOTOR CORPORATION");
  (0x00011F, "TOYOTA TSUSHO CORPORATION");
  (0x00005C, "Tranceboot Co.,Ltd.");
  (0x000076, "TSP CO.,Ltd");
  (0x0000D0, "TSUBAKIMOTO CHAIN CO.");
  (0x0000C1, "Tsuken Electric Ind Co., Ltd.");
  (0x000053, "Ubiquitous AI Corporation");
  (0x000117, "WWB Corporation");
  (0x000095, "Yamato Denki Co.,Ltd.");
  (0x00009E, "YASKAWA ELECTRIC CORPORATION");
  (0x00007A, "ZUKEN ELMIC,INC.");
  (0x0000B4, "4R Energy Corporation");
  (0xFFFFFF, "Experimental");
  (0xFFFFFE, "Undefined")].
