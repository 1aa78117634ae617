(** The property names, types and sizes of /repo/uecho/std/objects_scsl.py and objects_mra.py, which
    DbData.v leaves out, transcribed mechanically.  An entry (group, class, rows) belongs to the entry of
    DbData.v at the same place; a row (code, (name, type, size)) stands for
      obj.add_property(Property(code, name, type, size, _, _, _)).
    Texts are the bytes of their UTF-8 form.  Each entry cites its source lines. *)
From Verif Require Import PyBase.
Local Open Scope string_scope.

(** The texts of the types that occur in the tables. *)
Definition ty0 : string := "unsigned char".
Definition ty1 : string := "unsigned short".
Definition ty2 : string := "signed short".
Definition ty3 : string := "unsigned long".
Definition ty4 : string := "signed long".
Definition ty5 : string := "unsigned long × 48".
Definition ty6 : string := "unsigned char × max 128".
Definition ty7 : string := "unsigned char × 16".
Definition ty8 : string := "unsigned char × 3 x max 128".
Definition ty9 : string := "unsigned char × 3".
Definition ty10 : string := "unsigned short × 4".
Definition ty11 : string := "signed char".
Definition ty12 : string := "unsigned char ×8".
Definition ty13 : string := "unsigned char × 8".
Definition ty14 : string := "unsigned char × 2".
Definition ty15 : string := "unsigned char ×2".
Definition ty16 : string := "unsigned char×2".
Definition ty17 : string := "unsigned short × 3".
Definition ty18 : string := "unsigned char× 2".
Definition ty19 : string := "unsigned char × 6".
Definition ty20 : string := "unsigned long ×2".
Definition ty21 : string := "unsigned short ×2".
Definition ty22 : string := "".
Definition ty23 : string := "unsigned long ×48 ×45".
Definition ty24 : string := "unsigned long ×48".
Definition ty25 : string := "unsigned char ×3".
Definition ty26 : string := "unsigned char × 4".
Definition ty27 : string := "unsigned char + unsigned char + (unsigned long (Max) × 60)".
Definition ty28 : string := "unsigned char + unsigned char + (signed short × 2 (Max) × 60)".
Definition ty29 : string := "unsigned char + unsigned char + (signed long (Max) × 60)".
Definition ty30 : string := "unsigned char + unsigned char + (unsigned long + unsigned long (Max) × 30)".
Definition ty31 : string := "unsigned short +unsign ed long ×48".
Definition ty32 : string := "signed short ×2".
Definition ty33 : string := "unsigned long + signed short ×2".
Definition ty34 : string := "unsigned char × 10".
Definition ty35 : string := "unsigned short + unsigned long ×48".
Definition ty36 : string := "unsigned short +unsigned long ×48".
Definition ty37 : string := "unsigned char ×4 + unsigned char×3 + unsigned long ".
Definition ty38 : string := "unsigned char ×4 + unsigned char ×3 + unsigned long".
Definition ty39 : string := "unsigned short +unsigne d long ×48".
Definition ty40 : string := "unsigned char ×10".
Definition ty41 : string := "unsigne d char×4+ unsigne d char×3+ unsigne d long".
Definition ty42 : string := "unsigne d char×4+ unsigne d char×3+ unsigne d long×24 +unsign ed long+un signed short".
Definition ty43 : string := "unsigned char×3".
Definition ty44 : string := "unsigned cha".
Definition ty45 : string := "unsigned char ×2 ×4".
Definition ty46 : string := "unsigned short ×20".
Definition ty47 : string := "unsigned char ×3 ×2".
Definition ty48 : string := "unsigned char × 3 × 4".
Definition ty49 : string := "unsig ned char".
Definition ty50 : string := "unsig ned char ×12 ".
Definition ty51 : string := "unsig ned char ×4 ".
Definition ty52 : string := "unsig ned short".
Definition ty53 : string := "unsign ed char ×2".
Definition ty54 : string := "unsigned char ×4".
Definition ty55 : string := "unsigned Char ×24".
Definition ty56 : string := "unsigned char× Max 247".
Definition ty57 : string := "state".
Definition ty58 : string := "raw".
Definition ty59 : string := "number".
Definition ty60 : string := "date".
Definition ty61 : string := "time".
Definition ty62 : string := "object".
Definition ty63 : string := "level".
Definition ty64 : string := "bitmap".
Definition ty65 : string := "numericValue".
Definition ty66 : string := "array".

Notation plabel := (string * string * Z)%type.
Notation name_row := (Z * plabel)%type.
Notation name_entry := (Z * Z * list name_row)%type.

(** uecho/std/objects_scsl.py:31-1271. *)
Definition scsl_names : list name_entry := [
  (* objects_scsl.py:31-36 *)
  (0x00, 0x01, [
    (0x80, ("Operation status", ty0, 1));
    (0xB0, ("Detection threshold level", ty0, 1));
    (0xB1, ("Gas leak occurrence status", ty0, 1));
    (0xBF, ("Gas leak occurrence status resetting", ty0, 1))]);
  (* objects_scsl.py:39-44 *)
  (0x00, 0x02, [
    (0x80, ("Operation status", ty0, 1));
    (0xB0, ("Detection threshold level", ty0, 1));
    (0xB1, ("Invasion occurrence status", ty0, 1));
    (0xBF, ("Invasion occurrence status resetting", ty0, 1))]);
  (* objects_scsl.py:47-51 *)
  (0x00, 0x03, [
    (0x80, ("Operation status", ty0, 1));
    (0xB1, ("Emergency occurrence status", ty0, 1));
    (0xBF, ("Emergency occurrence status resetting", ty0, 1))]);
  (* objects_scsl.py:54-59 *)
  (0x00, 0x04, [
    (0x80, ("Operation status", ty0, 1));
    (0xB0, ("Detection threshold level", ty0, 1));
    (0xB1, ("First-aid occurrence status", ty0, 1));
    (0xBF, ("First-aid occurrence status resetting", ty0, 1))]);
  (* objects_scsl.py:62-67 *)
  (0x00, 0x05, [
    (0x80, ("Operation status", ty0, 1));
    (0xB0, ("Detection threshold level", ty0, 1));
    (0xB1, ("Earthquake occurrence status", ty0, 1));
    (0xBF, ("Earthquake occurrence status resetting", ty0, 1))]);
  (* objects_scsl.py:70-75 *)
  (0x00, 0x06, [
    (0x80, ("Operation status", ty0, 1));
    (0xB0, ("Detection threshold level", ty0, 1));
    (0xB1, ("Electric leak occurrence status", ty0, 1));
    (0xBF, ("Electric leak occurrence status resetting", ty0, 1))]);
  (* objects_scsl.py:78-82 *)
  (0x00, 0x07, [
    (0x80, ("Operation status", ty0, 1));
    (0xB0, ("Detection threshold level", ty0, 1));
    (0xB1, ("Human detection status", ty0, 1))]);
  (* objects_scsl.py:85-90 *)
  (0x00, 0x08, [
    (0x80, ("Operation status", ty0, 1));
    (0xB0, ("Detection threshold level", ty0, 1));
    (0xB1, ("Visitor detection status", ty0, 1));
    (0xBE, ("Visitor detection holding time", ty1, 2))]);
  (* objects_scsl.py:93-98 *)
  (0x00, 0x09, [
    (0x80, ("Operation status", ty0, 1));
    (0xB0, ("Detection threshold level", ty0, 1));
    (0xB1, ("Call status", ty0, 1));
    (0xBE, ("Call holding time", ty1, 2))]);
  (* objects_scsl.py:101-105 *)
  (0x00, 0x0A, [
    (0x80, ("Operation status", ty0, 1));
    (0xB0, ("Detection threshold level", ty0, 1));
    (0xB1, ("Condensation detection status", ty0, 1))]);
  (* objects_scsl.py:108-112 *)
  (0x00, 0x0B, [
    (0x80, ("Operation status", ty0, 1));
    (0xB0, ("Detection threshold level", ty0, 1));
    (0xB1, ("Air pollution detection status", ty0, 1))]);
  (* objects_scsl.py:115-118 *)
  (0x00, 0x0C, [
    (0x80, ("Operation status", ty1, 1));
    (0xE0, ("Measured value of oxygen concentration", ty1, 2))]);
  (* objects_scsl.py:121-125 *)
  (0x00, 0x0D, [
    (0x80, ("Operation status", ty1, 1));
    (0xE0, ("Measured illuminance value 1", ty1, 2));
    (0xE1, ("Measured illuminance value 2", ty1, 2))]);
  (* objects_scsl.py:128-133 *)
  (0x00, 0x0E, [
    (0x80, ("Operation status", ty0, 1));
    (0xB0, ("Detection threshold level", ty0, 1));
    (0xB1, ("Sound detection status", ty0, 1));
    (0xBE, ("Sound detection holding time", ty1, 2))]);
  (* objects_scsl.py:136-140 *)
  (0x00, 0x0F, [
    (0x80, ("Operation status", ty0, 1));
    (0xB0, ("Detection threshold level", ty0, 1));
    (0xB1, ("Mailing detection status", ty0, 1))]);
  (* objects_scsl.py:143-147 *)
  (0x00, 0x10, [
    (0x80, ("Operation status", ty0, 1));
    (0xB0, ("Detection threshold level", ty0, 1));
    (0xB1, ("Weight detection status", ty0, 1))]);
  (* objects_scsl.py:150-153 *)
  (0x00, 0x11, [
    (0x80, ("Operation status", ty0, 1));
    (0xE0, ("Measured temperature value", ty2, 2))]);
  (* objects_scsl.py:156-159 *)
  (0x00, 0x12, [
    (0x80, ("Operation status", ty0, 1));
    (0xE0, ("Measured value of relative humidity", ty0, 1))]);
  (* objects_scsl.py:162-166 *)
  (0x00, 0x13, [
    (0x80, ("Operation status", ty0, 1));
    (0xB0, ("Detection threshold level", ty0, 1));
    (0xB1, ("Rain detection status", ty0, 1))]);
  (* objects_scsl.py:169-174 *)
  (0x00, 0x14, [
    (0x80, ("Operation status", ty0, 1));
    (0xB0, ("Water level over detection threshold level", ty0, 1));
    (0xB1, ("Water level over detection status", ty0, 1));
    (0xE0, ("Measured value of water level", ty0, 1))]);
  (* objects_scsl.py:177-182 *)
  (0x00, 0x15, [
    (0x80, ("Operation status", ty0, 1));
    (0xB0, ("Bath water level over detection threshold level", ty0, 1));
    (0xB1, ("Bath water level over detection status", ty0, 1));
    (0xE0, ("Measured value of bath water level", ty0, 1))]);
  (* objects_scsl.py:185-189 *)
  (0x00, 0x16, [
    (0x80, ("Operation status", ty0, 1));
    (0xB0, ("Detection threshold level", ty0, 1));
    (0xB1, ("Bath heating detection status", ty0, 1))]);
  (* objects_scsl.py:192-196 *)
  (0x00, 0x17, [
    (0x80, ("Operation status", ty0, 1));
    (0xB0, ("Detection threshold level", ty0, 1));
    (0xB1, ("Water leak detection status", ty0, 1))]);
  (* objects_scsl.py:199-203 *)
  (0x00, 0x18, [
    (0x80, ("Operation status", ty0, 1));
    (0xB0, ("Detection threshold level", ty0, 1));
    (0xB1, ("Water overflow detection status", ty0, 1))]);
  (* objects_scsl.py:206-211 *)
  (0x00, 0x19, [
    (0x80, ("Operation status", ty0, 1));
    (0xB0, ("Detection threshold level", ty0, 1));
    (0xB1, ("Fire occurrence detection status", ty0, 1));
    (0xBF, ("Fire occurrence detection status resetting", ty0, 1))]);
  (* objects_scsl.py:214-218 *)
  (0x00, 0x1A, [
    (0x80, ("Operation status", ty0, 1));
    (0xB0, ("Detection threshold level", ty0, 1));
    (0xB1, ("Smoke (cigarette) detection status", ty0, 1))]);
  (* objects_scsl.py:221-224 *)
  (0x00, 0x1B, [
    (0x80, ("Operation status", ty0, 1));
    (0xE0, ("Measured value of CO2 concentration", ty1, 2))]);
  (* objects_scsl.py:227-232 *)
  (0x00, 0x1C, [
    (0x80, ("Operation status", ty0, 1));
    (0xB0, ("Detection threshold level", ty0, 1));
    (0xB1, ("Gas detection status", ty0, 1));
    (0xE0, ("Measured value of gas concentration", ty1, 2))]);
  (* objects_scsl.py:235-240 *)
  (0x00, 0x1D, [
    (0x80, ("Operation status", ty0, 1));
    (0xB0, ("Detection threshold level", ty0, 1));
    (0xB1, ("VOC detection status", ty0, 1));
    (0xE0, ("Measured value of VOC concentration", ty1, 2))]);
  (* objects_scsl.py:243-246 *)
  (0x00, 0x1E, [
    (0x80, ("Operation status", ty0, 1));
    (0xE0, ("Measured value of differential pressure", ty2, 2))]);
  (* objects_scsl.py:249-253 *)
  (0x00, 0x1F, [
    (0x80, ("Operation status", ty0, 1));
    (0xE0, ("Measured value of air speed", ty1, 2));
    (0xE1, ("Air flow direction", ty1, 2))]);
  (* objects_scsl.py:256-261 *)
  (0x00, 0x20, [
    (0x80, ("Operation status", ty0, 1));
    (0xB0, ("Detection threshold level", ty0, 1));
    (0xB1, ("Odor detection status", ty0, 1));
    (0xE0, ("Measured odor value", ty0, 1))]);
  (* objects_scsl.py:264-269 *)
  (0x00, 0x21, [
    (0x80, ("Operation status", ty0, 1));
    (0xB0, ("Detection threshold level", ty0, 1));
    (0xB1, ("Flame detection status", ty0, 1));
    (0xBF, ("Flame detection status resetting", ty0, 1))]);
  (* objects_scsl.py:272-280 *)
  (0x00, 0x22, [
    (0x80, ("Operation status", ty0, 1));
    (0xE0, ("Integral electric energy", ty3, 4));
    (0xE1, ("Medium-capacity sensor instantaneous electric energy", ty4, 4));
    (0xE2, ("Small-capacity sensor instantaneous electric energy", ty2, 2));
    (0xE3, ("Large-capacity sensor instantaneous electric energy", ty2, 2));
    (0xE4, ("Integral electric energy measurement log", ty5, 192));
    (0xE5, ("Effective voltage value", ty1, 2))]);
  (* objects_scsl.py:283-288 *)
  (0x00, 0x23, [
    (0x80, ("Operation status", ty0, 1));
    (0xE0, ("Measured current value 1", ty3, 4));
    (0xE1, ("Rated voltage to be measured", ty1, 2));
    (0xE2, ("Measured current value 2", ty3, 4))]);
  (* objects_scsl.py:291-295 *)
  (0x00, 0x25, [
    (0x80, ("Operation status", ty0, 1));
    (0xE0, ("Integral flow rate", ty3, 4));
    (0xE2, ("Flow rate", ty3, 4))]);
  (* objects_scsl.py:298-305 *)
  (0x00, 0x26, [
    (0x80, ("Operation status", ty0, 1));
    (0xB0, ("Detection threshold level", ty0, 1));
    (0xB1, ("Micromotion detection status", ty0, 1));
    (0xB2, ("Detection counter", ty1, 2));
    (0xBC, ("Sampling count", ty1, 2));
    (0xBD, ("Sampling cycle", ty1, 2))]);
  (* objects_scsl.py:308-313 *)
  (0x00, 0x27, [
    (0x80, ("Operation status", ty0, 1));
    (0xB0, ("Detection threshold level", ty0, 1));
    (0xBE, ("Passage detection hold time", ty0, 2));
    (0xE0, ("Passage detection direction", ty0, 1))]);
  (* objects_scsl.py:316-320 *)
  (0x00, 0x28, [
    (0x80, ("Operation status", ty0, 1));
    (0xB0, ("Detection threshold level", ty0, 1));
    (0xB1, ("Bed presence detection status", ty0, 1))]);
  (* objects_scsl.py:323-328 *)
  (0x00, 0x29, [
    (0x80, ("Operation status", ty0, 1));
    (0xE0, ("Degree-of-openi ng detection status 1", ty0, 1));
    (0xB0, ("Detection threshold level", ty0, 1));
    (0xB1, ("Degree-of-openi ng detection status 2", ty0, 1))]);
  (* objects_scsl.py:331-337 *)
  (0x00, 0x2A, [
    (0x80, ("Operation status", ty0, 1));
    (0xE0, ("Activity amount level 1", ty6, 0));
    (0xE1, ("Maximum number of human body ID's", ty1, 2));
    (0xE2, ("Activity amount level 2", ty0, 1));
    (0xE3, ("Human body existence information", ty7, 16))]);
  (* objects_scsl.py:340-346 *)
  (0x00, 0x2B, [
    (0x80, ("Operation status", ty0, 1));
    (0xE0, ("Human body detection location 1", ty8, 0));
    (0xE1, ("Maximum number of human body ID's", ty1, 2));
    (0xE2, ("Human body detection location 2", ty9, 3));
    (0xE3, ("Human body existence information", ty7, 16))]);
  (* objects_scsl.py:349-353 *)
  (0x00, 0x2C, [
    (0x80, ("Operation status", ty0, 1));
    (0xB0, ("Detection threshold level", ty0, 1));
    (0xB1, ("Snow detection status", ty0, 1))]);
  (* objects_scsl.py:356-401 *)
  (0x01, 0x30, [
    (0x80, ("Operation status", ty0, 1));
    (0xB0, ("Operation mode setting", ty0, 1));
    (0xB1, ("Automatic temperature control setting", ty0, 1));
    (0xB2, ("Normal/high- speed/silent operation setting", ty0, 1));
    (0xB3, ("Set temperature value", ty0, 1));
    (0xB4, ("Set value of relative humidity in dehumidifying mode", ty0, 1));
    (0xB5, ("Set temperature value in cooling mode", ty0, 1));
    (0xB6, ("Set temperature value in heating mode", ty0, 1));
    (0xB7, ("Set temperature value in dehumidifying mode", ty0, 1));
    (0xB8, ("Rated power consumption", ty10, 8));
    (0xB9, ("Measured value of current consumption", ty1, 2));
    (0xBA, ("Measured value of room relative humidity", ty0, 1));
    (0xBB, ("Measured value of room temperature", ty11, 1));
    (0xBC, ("Set temperature value of user remote control", ty0, 1));
    (0xBD, ("Measured cooled air temperature", ty11, 1));
    (0xBE, ("Measured outdoor air temperature", ty11, 1));
    (0xBF, ("Relative temperature setting", ty0, 1));
    (0xA0, ("Air flow rate setting", ty0, 1));
    (0xA1, ("Automatic control of air flow direction setting", ty0, 1));
    (0xA3, ("Automatic swing of air flow setting", ty0, 1));
    (0xA4, ("Air flow direction (vertical) setting", ty0, 1));
    (0xA5, ("Air flow direction (horizontal) setting", ty0, 1));
    (0xAA, ("Special state", ty0, 1));
    (0xAB, ("Non-priority state", ty0, 1));
    (0xC0, ("Ventilation function setting", ty0, 1));
    (0xC1, ("Humidifier function setting", ty0, 1));
    (0xC2, ("Ventilation air flow rate setting", ty0, 1));
    (0xC4, ("Degree of humidification setting", ty0, 1));
    (0xC6, ("Mounted air cleaning method", ty0, 1));
    (0xC7, ("Air purifier function setting", ty12, 8));
    (0xC8, ("Mounted air refresh method", ty0, 1));
    (0xC9, ("Air refresher function setting", ty13, 8));
    (0xCA, ("Mounted self-cleaning method", ty0, 1));
    (0xCB, ("Self-cleaning function setting", ty13, 8));
    (0xCC, ("Special function setting", ty0, 1));
    (0xCD, ("Operation status of components", ty0, 1));
    (0xCE, ("Thermostat setting override function", ty0, 1));
    (0xCF, ("Air purification mode setting", ty0, 1));
    (0x90, ("ON timer-based reservation setting", ty0, 1));
    (0x91, ("ON timer setting (time)", ty14, 2));
    (0x92, ("ON timer setting (relative time)", ty14, 2));
    (0x94, ("OFF timer-based reservation setting", ty0, 1));
    (0x95, ("OFF timer setting (time)", ty14, 2));
    (0x96, ("OFF timer setting (relative time)", ty14, 2))]);
  (* objects_scsl.py:404-408 *)
  (0x01, 0x33, [
    (0x80, ("Operation status", ty0, 1));
    (0xBF, ("Ventilation auto setting", ty0, 1));
    (0xA0, ("Set value of ventilation air flow rate", ty0, 1))]);
  (* objects_scsl.py:411-420 *)
  (0x01, 0x34, [
    (0x80, ("Operation status", ty0, 1));
    (0xB4, ("Set value of room relative humidity", ty0, 1));
    (0xBF, ("Ventilation auto setting", ty0, 1));
    (0xBA, ("Measured value of room relative humidity", ty0, 1));
    (0xA0, ("Set value of ventilation air flow rate", ty0, 1));
    (0xE0, ("Heat exchanger operation setting", ty0, 1));
    (0xC0, ("Measured value of CO2 concentration", ty1, 2));
    (0xC1, ("Smoke (cigarette) detection status", ty0, 1))]);
  (* objects_scsl.py:423-430 *)
  (0x01, 0x35, [
    (0x80, ("Operation status", ty0, 1));
    (0xE1, ("Filter change notice", ty0, 1));
    (0xA0, ("Air flow rate setting", ty0, 1));
    (0xC1, ("Smoke (cigarette) detection status", ty0, 1));
    (0xC2, ("Optical catalyst operation setting", ty0, 1));
    (0xC0, ("Air pollution detection status", ty0, 1))]);
  (* objects_scsl.py:433-444 *)
  (0x01, 0x39, [
    (0x80, ("Operation status", ty0, 1));
    (0xC0, ("Humidifying setting 1", ty0, 1));
    (0xC1, ("Humidifying setting 2", ty0, 1));
    (0xB4, ("Measured value of relative humidity", ty0, 1));
    (0x94, ("Reservation set of OFF timer", ty0, 1));
    (0x96, ("Relative time value set of OFF timer", ty15, 2));
    (0xC2, ("Ion emission setting", ty0, 1));
    (0xC3, ("Implemented ion emission method", ty0, 1));
    (0xC4, ("Special operation mode setting", ty1, 1));
    (0xC5, ("Water amount level", ty0, 1))]);
  (* objects_scsl.py:447-460 *)
  (0x01, 0x42, [
    (0x80, ("Operation status", ty0, 1));
    (0xB1, ("Automatic temperature control setting", ty0, 1));
    (0xB3, ("Temperature setting", ty0, 1));
    (0xBB, ("Measured room temperature", ty11, 1));
    (0xBC, ("Remotely set temperature", ty0, 1));
    (0xA0, ("Air flow rate setting", ty0, 1));
    (0x90, ("ON timer-based reservation setting", ty0, 1));
    (0x91, ("ON timer setting (time)", ty14, 2));
    (0x92, ("ON timer setting (relative time)", ty14, 2));
    (0x94, ("OFF timer-based reservation setting", ty0, 1));
    (0x95, ("OFF timer setting (time)", ty14, 2));
    (0x96, ("Set value of OFF timer relative time", ty14, 2))]);
  (* objects_scsl.py:463-479 *)
  (0x01, 0x43, [
    (0x80, ("Operation status", ty0, 1));
    (0xB3, ("Temperature setting value", ty0, 1));
    (0xBB, ("Measured temperature", ty11, 1));
    (0xB1, ("Automatic temperature control setting", ty0, 1));
    (0x90, ("ON timer reservation setting", ty0, 1));
    (0x91, ("ON timer setting value (time)", ty14, 2));
    (0x92, ("ON timer setting value (relative time)", ty14, 2));
    (0x94, ("OFF timer reservation setting", ty0, 1));
    (0x95, ("OFF timer setting value (time)", ty14, 2));
    (0x96, ("OFF timer value ( relative time)", ty14, 2));
    (0xC0, ("Extentional operation setting", ty0, 1));
    (0xC1, ("Extentional operation timer time setting value", ty14, 2));
    (0xC2, ("Ion emission setting", ty0, 1));
    (0xC3, ("Implemented ion emission method", ty0, 1));
    (0xC4, ("Oil amount level", ty0, 1))]);
  (* objects_scsl.py:482-522 *)
  (0x01, 0x45, [
    (0x80, ("Operation status", ty0, 1));
    (0xB0, ("Operation mode setting", ty0, 1));
    (0xB3, ("Temperature setting 1", ty11, 1));
    (0xB4, ("“Relative humidity setting for ‘dehumidifica- tion’ mode” 1", ty0, 1));
    (0xB5, ("“Temperature setting for ‘cooling’ mode” 1", ty11, 1));
    (0xB6, ("“Temperature setting for ‘heating’ mode” 1", ty11, 1));
    (0xB7, ("“Temperature setting for ‘dehumidifica- tion’ mode” 1", ty11, 1));
    (0xB8, ("Rated power consumption of indoor unit", ty10, 8));
    (0xB9, ("Measured electric current consumption of indoor unit", ty1, 2));
    (0xBA, ("Measured indoor relative humidity 1", ty0, 1));
    (0xBB, ("Measured indoor temperature 1", ty11, 1));
    (0xBF, ("Relative temperature setting", ty11, 1));
    (0xA0, ("Air flow rate setting", ty0, 1));
    (0xA4, ("“Air flow direction (vertical)” setting", ty0, 1));
    (0xA5, ("“Air flow direction (horizontal)” setting", ty0, 1));
    (0xAA, ("“Special” state", ty0, 1));
    (0xAC, ("Thermostat state", ty0, 1));
    (0xAE, ("Current function (“automatic” operation mode)", ty0, 1));
    (0xC0, ("Ventilation mode setting", ty0, 1));
    (0xC1, ("Combined operation of indoor unit and total heat exchanger", ty0, 1));
    (0xC2, ("Ventilation air flow rate setting", ty0, 1));
    (0xCD, ("“Disabling of air conditioner” setting", ty0, 1));
    (0xCE, ("Thermostat setting override function", ty0, 1));
    (0xCF, ("Filter cleaning reminder lamp setting", ty0, 1));
    (0xDB, ("Measured power consumption of indoor unit", ty1, 2));
    (0xDC, ("Aperture of expansion valve", ty0, 1));
    (0xE3, ("Temperature setting 2", ty1, 2));
    (0xE4, ("“Relative humidity setting for ‘dehumidificatio n’ mode” 2", ty1, 2));
    (0xE5, ("“Temperature setting for ‘cooling’ mode” 2", ty1, 2));
    (0xE6, ("“Temperature setting for ‘heating’ mode” 2", ty1, 2));
    (0xE7, ("“Temperature setting for ‘dehumidificatio n’ mode” 2", ty1, 2));
    (0xEA, ("Measured indoor relative humidity 2", ty1, 2));
    (0xEB, ("Measured indoor temperature 2", ty1, 2));
    (0x90, ("“ON timer-based reservation” setting", ty0, 1));
    (0x91, ("ON timer setting (time)", ty16, 2));
    (0x92, ("ON timer setting (relative time)", ty16, 2));
    (0x94, ("“OFF timer-based reservation” setting", ty0, 1));
    (0x95, ("OFF timer setting (time)", ty16, 2));
    (0x96, ("OFF timer setting (relative time)", ty16, 2))]);
  (* objects_scsl.py:525-537 *)
  (0x01, 0x46, [
    (0x80, ("Operation status", ty0, 1));
    (0xB0, ("Operation mode setting", ty0, 1));
    (0xB8, ("Rated power consumption of outdoor unit", ty17, 6));
    (0xB9, ("Measured electric current consumption of outdoor unit", ty1, 2));
    (0xBE, ("Measured outdoor air temperature 1", ty11, 1));
    (0xAA, ("“Special” state", ty0, 1));
    (0xD0, ("Operation status of compressor", ty0, 1));
    (0xD1, ("Operation mode information", ty0, 1));
    (0xD2, ("Fan rotation speed", ty0, 1));
    (0xDB, ("Measured power consumption of outdoor unit", ty1, 2));
    (0xEE, ("Measured outdoor air temperature 2", ty2, 2))]);
  (* objects_scsl.py:540-546 *)
  (0x02, 0x60, [
    (0x80, ("Operation status", ty0, 1));
    (0xE0, ("Open/close setting", ty0, 1));
    (0xE1, ("Degree-of-openi ng level", ty0, 1));
    (0xE2, ("Set value of shade angle", ty0, 1));
    (0xE3, ("Shade open/close speed", ty0, 1))]);
  (* objects_scsl.py:549-558 *)
  (0x02, 0x61, [
    (0x80, ("Operation status", ty0, 1));
    (0xE0, ("Open/close setting 1", ty0, 1));
    (0xE1, ("Extent of opening 1", ty0, 1));
    (0xE2, ("Blind angle setting", ty0, 1));
    (0xE3, ("Shutter speed", ty0, 1));
    (0xE4, ("Extent of opening 2", ty0, 1));
    (0xE5, ("Electric lock setting", ty0, 1));
    (0xE7, ("Open/close setting 2", ty0, 1))]);
  (* objects_scsl.py:561-570 *)
  (0x02, 0x63, [
    (0x80, ("Operation status", ty0, 1));
    (0xE0, ("Open/close setting 1", ty0, 1));
    (0xE1, ("Extent of opening 1", ty0, 1));
    (0xE2, ("Blind angle setting", ty0, 1));
    (0xE3, ("Shutter speed", ty0, 1));
    (0xE4, ("Extent of opening 2", ty0, 1));
    (0xE5, ("Electric lock setting", ty0, 1));
    (0xE7, ("Open/close setting 2", ty0, 1))]);
  (* objects_scsl.py:573-581 *)
  (0x02, 0x67, [
    (0x80, ("Operation status", ty0, 1));
    (0xE0, ("Sprinkle valve open/close setting", ty0, 1));
    (0xE1, ("Sprinkle interval setting", ty3, 1));
    (0xE2, ("Number of sprinkles setting", ty0, 1));
    (0xE3, ("Sprinkle time setting 1", ty15, 2));
    (0xE4, ("Sprinkle time setting 2", ty15, 2));
    (0xE5, ("Sprinkle duration setting", ty0, 1))]);
  (* objects_scsl.py:584-611 *)
  (0x02, 0x6B, [
    (0x80, ("Operation status", ty0, 1));
    (0xB0, ("“Automatic water heating” setting", ty0, 1));
    (0xB1, ("“Automatic water temperature control” setting", ty0, 1));
    (0xB2, ("Water heater status", ty0, 1));
    (0xB3, ("Water heating temperature setting", ty0, 1));
    (0xC0, ("“Daytime reheating permission” setting", ty0, 1));
    (0xC1, ("Measured temperature of water in water heater", ty0, 1));
    (0xC2, ("Alarm status", ty14, 4));
    (0xD1, ("“Temperature of supplied water” setting", ty0, 1));
    (0xD3, ("Bath water temperature setting", ty0, 1));
    (0xE0, ("Bath water volume setting", ty0, 1));
    (0xE1, ("Measured amount of water remaining in tank", ty1, 2));
    (0xE2, ("Tank capacity", ty1, 2));
    (0xE3, ("“Automatic bath water heating” mode setting", ty0, 1));
    (0xE5, ("“Addition of hot water” function setting", ty0, 1));
    (0xE6, ("“Slight bath water temperature lowering” function setting", ty0, 1));
    (0xE7, ("Bath water volume setting 1", ty0, 1));
    (0xE8, ("Bath water volume setting 2", ty0, 1));
    (0xEE, ("Bath water volume setting 3", ty1, 2));
    (0xD4, ("Bath water volume setting 4", ty0, 1));
    (0xD5, ("Bath water volume setting 4- Maximum settable level", ty0, 1));
    (0x90, ("ON timer reservation setting", ty0, 1));
    (0x91, ("ON timer setting", ty14, 2));
    (0xDB, ("Rated power consumption of H/P unit in wintertime", ty1, 2));
    (0xDC, ("Rated power consumption of H/P unit in in-between seasons", ty1, 2));
    (0xDD, ("Rated power consumption of H/P unit in summertime", ty1, 2))]);
  (* objects_scsl.py:614-629 *)
  (0x02, 0x6E, [
    (0x80, ("Operation status", ty0, 1));
    (0xE0, ("Temperature level of toilet seat", ty0, 1));
    (0xE1, ("Heater setting of toilet seat", ty0, 1));
    (0xE2, ("Temporal halt setting of toilet seat", ty0, 1));
    (0xE3, ("Temporal halt start time of toilet seat", ty15, 2));
    (0xE4, ("Temporal halt time duration of toilet seat", ty15, 2));
    (0xE5, ("Temperature level setting of room heating", ty0, 1));
    (0xE6, ("Room heating setting", ty0, 1));
    (0xE7, ("Room heating status", ty0, 1));
    (0xE8, ("Start time of room heating", ty15, 2));
    (0xE9, ("Duration time of room heating", ty15, 2));
    (0xEA, ("Special operation mode setting", ty0, 1));
    (0xEB, ("Human detection status", ty0, 1));
    (0xEC, ("Seating detection status", ty0, 1))]);
  (* objects_scsl.py:632-641 *)
  (0x02, 0x6F, [
    (0x80, ("Operation status", ty0, 1));
    (0xE0, ("Lock setting 1", ty0, 1));
    (0xE1, ("Lock setting 2", ty0, 1));
    (0xE2, ("Lock status of door guard", ty0, 1));
    (0xE3, ("Door open/close status", ty0, 1));
    (0xE4, ("Occupant/ non-occupant status", ty0, 1));
    (0xE5, ("Alarm status", ty0, 1));
    (0xE6, ("Auto lock mode setting", ty0, 1))]);
  (* objects_scsl.py:644-668 *)
  (0x02, 0x72, [
    (0x80, ("Operation status", ty0, 1));
    (0xD0, ("Hot water heating status", ty0, 1));
    (0xD1, ("Set value of hot water temperature", ty0, 1));
    (0xD2, ("Hot water Warmer setting", ty0, 1));
    (0xDA, ("“Duration of automatic operation” setting", ty18, 2));
    (0xDB, ("Remaining automatic operation time", ty14, 2));
    (0xE1, ("Set value of bath temperature", ty0, 1));
    (0xE2, ("Bath water heater status", ty0, 1));
    (0xE3, ("Bath auto mode setting", ty0, 1));
    (0xE4, ("Bath additional boil-up operation setting", ty0, 1));
    (0xE5, ("Bath hot water adding operation setting", ty0, 1));
    (0xE6, ("Bath water temperature lowering operation setting", ty0, 1));
    (0xE7, ("Bath hot water volume setting 1", ty0, 1));
    (0xE8, ("Bath hot water volume setting 2", ty0, 1));
    (0xEE, ("Bath hot water volume setting 3", ty1, 2));
    (0xE9, ("Bathroom priority setting", ty0, 1));
    (0xEA, ("Shower hot water supply status", ty0, 1));
    (0xEB, ("Kitchen hot water supply status", ty0, 1));
    (0xEC, ("Hot water warmer ON timer reservation setting", ty0, 1));
    (0xED, ("Set value of hot water warmer ON timer time", ty14, 2));
    (0x90, ("ON timer reservation setting", ty0, 1));
    (0x91, ("Set value of ON timer time", ty14, 2));
    (0x92, ("Set value of ON timer relative time", ty14, 2))]);
  (* objects_scsl.py:671-691 *)
  (0x02, 0x73, [
    (0x80, ("Operation status", ty0, 1));
    (0xB0, ("Operation setting", ty0, 1));
    (0xB1, ("Ventilation operation setting", ty0, 1));
    (0xB2, ("Bathroom pre-warmer operation setting", ty0, 1));
    (0xB3, ("Bathroom heater operation setting", ty0, 1));
    (0xB4, ("Bathroom dryer operation setting", ty0, 1));
    (0xB5, ("Cool air circulator operation setting", ty0, 1));
    (0xBA, ("Measured relative bathroom humidity", ty0, 1));
    (0xBB, ("Measured bathroom temperature", ty11, 1));
    (0xC2, ("Ventilation air flow rate setting", ty0, 1));
    (0xCF, ("Filter cleaning reminder sign setting", ty0, 1));
    (0xE0, ("Human body detection status", ty0, 1));
    (0x90, ("“ON timer-based reservation” setting 1", ty0, 1));
    (0xE1, ("“ON timer-based reservation” setting 2", ty0, 1));
    (0x91, ("ON timer setting (time)", ty15, 2));
    (0x92, ("ON timer setting (relative time)", ty15, 2));
    (0x94, ("“OFF timer-based reservation” setting", ty0, 1));
    (0x95, ("OFF timer setting (time)", ty15, 2));
    (0x96, ("OFF timer setting (relative time)", ty15, 2))]);
  (* objects_scsl.py:694-707 *)
  (0x02, 0x79, [
    (0x80, ("Operation status", ty0, 1));
    (0xD0, ("System-interconnected type", ty0, 1));
    (0xE0, ("Measured instantaneous amount of electricity generated", ty1, 2));
    (0xE1, ("Measured cumulative amount of electric energy generated", ty3, 4));
    (0xE2, ("Resetting cumulative amount of electric energy generated", ty0, 1));
    (0xE3, ("Measured cumulative amount of electric energy sold", ty3, 4));
    (0xE4, ("Resetting cumulative amount of electric energy sold", ty0, 1));
    (0xE5, ("Power generation output limit setting 1", ty0, 1));
    (0xE6, ("Power generation output limit setting 2", ty1, 2));
    (0xE7, ("Limit setting for the amount of electricity sold", ty1, 2));
    (0xE8, ("Rated power generation output (System-interconnected)", ty1, 2));
    (0xE9, ("Rated power generation output (Independent)", ty1, 2))]);
  (* objects_scsl.py:710-727 *)
  (0x02, 0x7A, [
    (0x80, ("Operation status", ty0, 1));
    (0xE0, ("Operation mode setting", ty0, 1));
    (0xE1, ("Water temperature setting 1", ty0, 1));
    (0xE2, ("Water temperature setting 2", ty0, 1));
    (0xE3, ("Measured temperature of outward water (Exit water Temperature)", ty0, 1));
    (0xE4, ("Measured temperature of inward water (Entrance water temperature)", ty0, 1));
    (0xE5, ("Special operation setting", ty0, 1));
    (0xE6, ("Daily timer setting", ty0, 1));
    (0xE7, ("Daily timer setting 1", ty19, 6));
    (0xE8, ("Daily timer setting 2", ty19, 6));
    (0x90, ("ON timer reservation setting", ty0, 1));
    (0x91, ("ON timer setting", ty14, 2));
    (0x92, ("Relative ON timer setting", ty14, 2));
    (0x94, ("OFF timer reservation setting", ty0, 1));
    (0x95, ("Time set by OFF timer", ty15, 2));
    (0x96, ("Relative OFF timer setting", ty15, 2))]);
  (* objects_scsl.py:730-747 *)
  (0x02, 0x7B, [
    (0x80, ("Operation status", ty0, 1));
    (0xE0, ("Temperature setting 1", ty0, 1));
    (0xE1, ("Temperature setting 2", ty0, 1));
    (0xE2, ("Measured room temperature", ty11, 1));
    (0xE3, ("Measured floor temperature", ty11, 1));
    (0xE4, ("Zone change setting", ty0, 1));
    (0xE5, ("Special operation setting", ty0, 1));
    (0xE6, ("Daily timer setting", ty0, 1));
    (0xE7, ("Daily timer setting 1", ty19, 6));
    (0xE8, ("Daily timer setting 2", ty19, 6));
    (0x90, ("ON timer reservation setting", ty0, 1));
    (0x91, ("Time set by ON timer", ty14, 2));
    (0x92, ("Relative ON timer setting", ty14, 2));
    (0x94, ("OFF timer reservation setting", ty0, 1));
    (0x95, ("Time set by OFF timer", ty15, 2));
    (0x96, ("Relative OFF timer setting", ty15, 2))]);
  (* objects_scsl.py:750-769 *)
  (0x02, 0x7C, [
    (0x80, ("Operation status", ty0, 1));
    (0xC1, ("Measured temperature of water in water heater", ty0, 1));
    (0xC2, ("Rated power generation output", ty1, 2));
    (0xC3, ("Heating value of hot water storage tank", ty1, 2));
    (0xC4, ("Measured instantaneous power generation output", ty1, 2));
    (0xC5, ("Measured cumulative power generation output", ty3, 4));
    (0xC6, ("Cumulative power generation output reset setting", ty0, 1));
    (0xC7, ("Measured instantaneous gas consumption", ty1, 2));
    (0xC8, ("Measured cumulative gas consumption", ty3, 4));
    (0xC9, ("Cumulative gas consumption reset setting", ty0, 1));
    (0xCA, ("Power generation setting", ty0, 1));
    (0xCB, ("Power generation status", ty0, 1));
    (0xCC, ("Measured in-house instantaneous power consumption", ty1, 2));
    (0xCD, ("Measured in-house cumulative power consumption", ty3, 4));
    (0xCE, ("In-house cumulative power consumption reset", ty0, 1));
    (0xD0, ("System interconnected type", ty0, 1));
    (0xE1, ("Measured remaining hot water amount", ty1, 2));
    (0xE2, ("Tank capacity", ty1, 2))]);
  (* objects_scsl.py:772-811 *)
  (0x02, 0x7D, [
    (0x80, ("Operation status", ty0, 1));
    (0xC8, ("Minimum/maxim um charge electric energy", ty20, 8));
    (0xC9, ("Minimum/maxim um discharge electric energy", ty20, 8));
    (0xCA, ("Minimum/maxim um charge current", ty21, 4));
    (0xCB, ("Minimum/maxim um discharge current", ty21, 4));
    (0xCF, ("Working operation status", ty22, 0));
    (0xD0, ("Rated electric energy", ty3, 4));
    (0xD1, ("Rated capacity", ty1, 2));
    (0xD2, ("Rated voltage", ty1, 2));
    (0xD3, ("Measured instantaneous charge/discharge electric energy", ty4, 4));
    (0xD4, ("Measured instantaneous charge/discharge current", ty2, 2));
    (0xD5, ("Measured instantaneous charge/discharge voltage", ty2, 2));
    (0xD6, ("Measured cumulative discharge electric energy", ty3, 4));
    (0xD7, ("“Measured cumulative discharge electric energy” reset setting", ty0, 1));
    (0xD8, ("Measured cumulative charge electric energy", ty3, 4));
    (0xD9, ("“Measured cumulative charge electric energy” reset setting", ty0, 1));
    (0xDA, ("Operation mode setting", ty0, 1));
    (0xDB, ("System-interconn ected type", ty0, 1));
    (0xDC, ("Minimum/maximum charging power (Independent)", ty20, 8));
    (0xDD, ("Minimum/maximum discharging power (Independent)", ty20, 8));
    (0xDE, ("Minimum/maxim um charging current (Independent)", ty21, 4));
    (0xDF, ("Minimum/maxim um discharging current (Independent)", ty21, 4));
    (0xE0, ("Charging/dischar ging amount setting 1", ty4, 4));
    (0xE1, ("Charging/dischar ging amount setting 2", ty2, 2));
    (0xE2, ("Remaining stored electricity 1", ty3, 4));
    (0xE3, ("Remaining stored electricity 2", ty1, 2));
    (0xE4, ("Remaining stored electricity 3", ty0, 1));
    (0xE5, ("Battery state of health", ty0, 1));
    (0xE6, ("Battery type", ty0, 1));
    (0xE7, ("Charging amount setting 1", ty3, 4));
    (0xE8, ("Discharging amount setting 1", ty3, 4));
    (0xE9, ("Charging amount setting 2", ty1, 2));
    (0xEA, ("Discharging amount setting 2", ty1, 2));
    (0xEB, ("Charge electric energy setting", ty3, 4));
    (0xEC, ("Discharge electric energy setting", ty3, 4));
    (0xED, ("Charge current setting", ty1, 2));
    (0xEE, ("Discharge current setting", ty1, 2));
    (0xEF, ("Rated voltage (Independent)", ty1, 2))]);
  (* objects_scsl.py:814-852 *)
  (0x02, 0x7E, [
    (0x80, ("Operation status", ty0, 1));
    (0xC0, ("V2H stored electricity 1", ty3, 4));
    (0xC1, ("V2H stored electricity 2", ty1, 2));
    (0xC2, ("V2H remaining available capacity 1", ty3, 4));
    (0xC3, ("V2H remaining available capacity 2", ty1, 2));
    (0xC4, ("V2H remaining available capacity 3", ty0, 1));
    (0xC5, ("Rated charge capacity", ty3, 4));
    (0xC6, ("Rated discharge capacity", ty3, 4));
    (0xC7, ("Chargeable/discharge able status", ty0, 1));
    (0xC8, ("Minimum/maximum charge electric energy", ty20, 8));
    (0xC9, ("Minimum/maximum discharge electric energy", ty20, 8));
    (0xCA, ("Minimum/maximum charge current", ty21, 4));
    (0xCB, ("Minimum/maximum discharge current", ty21, 4));
    (0xD0, ("Used capacity 1", ty3, 4));
    (0xD1, ("Used capacity 2", ty1, 2));
    (0xD2, ("Rated voltage", ty1, 2));
    (0xD3, ("Measured instantaneous charge/discharge electric energy", ty4, 4));
    (0xD4, ("Measured instantaneous charge/discharge current", ty2, 2));
    (0xD5, ("Measured instantaneous charge/discharge voltage", ty2, 2));
    (0xD6, ("Measured cumulative discharge electric energy", ty3, 4));
    (0xD7, ("Cumulative discharge electric energy reset setting", ty0, 1));
    (0xD8, ("Measured cumulative charge electric energy", ty3, 4));
    (0xD9, ("Cumulative charge electric energy reset setting", ty0, 1));
    (0xDA, ("Operation mode setting", ty0, 1));
    (0xDB, ("System-interconnecte d type", ty0, 1));
    (0xE2, ("Remaining battery capacity1", ty3, 4));
    (0xE3, ("Remaining battery capacity2", ty1, 2));
    (0xE4, ("Remaining battery capacity3", ty0, 1));
    (0xE5, ("Deterioration status", ty0, 1));
    (0xE7, ("Charging amount setting 1", ty3, 4));
    (0xE8, ("Discharging amount setting 1", ty3, 4));
    (0xE9, ("Charging amount setting 2", ty1, 2));
    (0xEA, ("Discharging amount setting 2", ty1, 2));
    (0xEB, ("Charge electric energy setting", ty3, 4));
    (0xEC, ("Discharge electric energy setting", ty3, 4));
    (0xED, ("Charge current setting", ty1, 2));
    (0xEE, ("Discharge current setting", ty1, 2))]);
  (* objects_scsl.py:855-874 *)
  (0x02, 0x7F, [
    (0x80, ("Operation status", ty0, 1));
    (0xC1, ("Measured temperature of water in water heater", ty0, 1));
    (0xC2, ("Rated power generation output", ty1, 2));
    (0xC3, ("Heating value of hot water storage tank", ty1, 2));
    (0xC4, ("Measured instantaneous power generation output", ty1, 2));
    (0xC5, ("Measured cumulative power generation output", ty3, 4));
    (0xC6, ("Cumulative power generation output reset setting", ty0, 1));
    (0xC7, ("Measured instantaneous gas consumption", ty1, 2));
    (0xC8, ("Measured cumulative gas consumption", ty3, 4));
    (0xC9, ("Cumulative gas consumption reset setting", ty0, 1));
    (0xCA, ("Power generation setting ", ty0, 1));
    (0xCB, ("Power generation status", ty0, 1));
    (0xCC, ("Measured in-house instantaneous power consumption", ty1, 2));
    (0xCD, ("Measured in-house cumulative power consumption", ty3, 4));
    (0xCE, ("In-house cumulative power consumption reset", ty0, 1));
    (0xD0, ("System interconnected type", ty0, 1));
    (0xE1, ("Measured remaining hot water amount", ty1, 2));
    (0xE2, ("Tank capacity", ty1, 2))]);
  (* objects_scsl.py:877-883 *)
  (0x02, 0x80, [
    (0x80, ("Operation status", ty0, 1));
    (0xE0, ("Integral electric energy measurement value", ty3, 4));
    (0xE2, ("Integral electric energy unit", ty0, 1));
    (0xE3, ("Integral electric energy measurement log 1", ty5, 192));
    (0xE4, ("Integral electric energy measurement log 2", ty23, 8640))]);
  (* objects_scsl.py:886-897 *)
  (0x02, 0x81, [
    (0x80, ("Operation status", ty0, 1));
    (0xD0, ("Flowing water classification", ty0, 1));
    (0xD1, ("Owner classification", ty0, 1));
    (0xE0, ("Measured cumulative amount of flowing water", ty3, 4));
    (0xE1, ("Unit for measured cumulative amounts of flowing water", ty0, 1));
    (0xE2, ("Historical data of measured cumulative amounts of flowing water", ty24, 192));
    (0xE3, ("Detection of abnormal value in metering data", ty0, 1));
    (0xE4, ("Security data information", ty3, 4));
    (0xE5, ("ID number setting", ty0, 6));
    (0xE6, ("Verification expiration information", ty0, 6))]);
  (* objects_scsl.py:900-904 *)
  (0x02, 0x82, [
    (0x80, ("Operation status", ty0, 1));
    (0xE0, ("Integral gas consumption measurement value", ty3, 4));
    (0xE2, ("Integral gas consumption measurement log", ty5, 192))]);
  (* objects_scsl.py:907-933 *)
  (0x02, 0x83, [
    (0x80, ("Operation status", ty0, 1));
    (0xE0, ("Integral gas consumption of metering data 1", ty3, 4));
    (0xE1, ("Integral gas consumption of metering data 2", ty3, 4));
    (0xE2, ("Error detection statusof metering data", ty0, 1));
    (0xE3, ("Security data 1", ty3, 4));
    (0xE4, ("Security data 2", ty3, 4));
    (0xE5, ("Center valve shut-off status", ty0, 1));
    (0xE6, ("Center valve shut-off recovery permission setting status", ty0, 1));
    (0xE7, ("Emergency valve shut-off status", ty0, 1));
    (0xE8, ("Shut-off valve open/close status", ty0, 1));
    (0xE9, ("Residual volume control warning", ty0, 1));
    (0xEA, ("Set value of residual volume control warning level 1", ty9, 3));
    (0xEB, ("Set value of residual volume control warning level 2", ty9, 3));
    (0xEC, ("Set value of residual volume control warning level 3", ty25, 3));
    (0xED, ("Slight leak timer value (gas flow rate continuation)", ty0, 1));
    (0xEE, ("Slight leak timer value (without pressure increase)", ty0, 1));
    (0xEF, ("Shut-off reason log", ty9, 3));
    (0xD0, ("Maximum value of supply pressure data", ty1, 2));
    (0xD1, ("Minimum value of supply pressure data", ty1, 2));
    (0xD2, ("Current value of supply pressure data", ty1, 2));
    (0xD3, ("Maximum value of block pressure data", ty1, 2));
    (0xD4, ("Minimum value of block pressure data", ty1, 2));
    (0xD5, ("Current value of block pressure data", ty1, 2));
    (0xD6, ("Number of block pressure/supply pressure error days:time", ty26, 4));
    (0xD7, ("Test call setting", ty0, 1))]);
  (* objects_scsl.py:936-994 *)
  (0x02, 0x87, [
    (0x80, ("Operation status", ty0, 1));
    (0xB0, ("Master rated capacity", ty0, 1));
    (0xB1, ("Number of measurement channels (simplex)", ty0, 1));
    (0xB2, ("Channel range specification for cumulative amount of electric power consumption measurement (simplex)", ty14, 2));
    (0xB3, ("Measured cumulative amount of electric power consumption list (simplex)", ty27, 0));
    (0xB4, ("Channel range specification for instantaneous current measurement (simplex)", ty14, 2));
    (0xB5, ("Measured instantaneous current list (simplex)", ty28, 0));
    (0xB6, ("Channel range specification for instantaneous power consumption measurement (simplex)", ty14, 2));
    (0xB7, ("Measured instantaneous power consumption list (simplex)", ty29, 0));
    (0xB8, ("Number of measurement channels (duplex)", ty0, 1));
    (0xB9, ("Channel range specification for cumulative amount of electric power consumption measurement (duplex)", ty14, 2));
    (0xBA, ("Measured cumulative amount of electric power consumption list (duplex)", ty30, 0));
    (0xBB, ("Channel range specification for instantaneous current measurement (duplex)", ty14, 2));
    (0xBC, ("Measured instantaneous current list (duplex)", ty28, 0));
    (0xBD, ("Channel range specification for instantaneous power consumption measurement (duplex)", ty14, 2));
    (0xBE, ("Measured instantaneous power consumption list (duplex)", ty29, 0));
    (0xC0, ("Measured cumulative amount of electric energy (normal direction)", ty3, 4));
    (0xC1, ("Measured cumulative amount of electric energy (reverse direction)", ty3, 4));
    (0xC2, ("Unit for cumulative amounts of electric energy", ty0, 1));
    (0xC3, ("Historical data of measured cumulative amounts of electric energy (normal direction)", ty31, 194));
    (0xC4, ("Historical data of measured cumulative amounts of electric energy (reverse direction)", ty31, 194));
    (0xC5, ("Day for which the historical data of measured cumulative amounts of electric energy is to be retrieved", ty0, 1));
    (0xC6, ("Measured instantaneo us amount of electric energy", ty4, 4));
    (0xC7, ("Measured instantaneous currents", ty32, 4));
    (0xC8, ("Measured instantaneous voltages", ty21, 4));
    (0xD0, ("Measurement channel 1", ty33, 8));
    (0xD1, ("Measurement channel 2", ty33, 8));
    (0xD2, ("Measurement channel 3", ty33, 8));
    (0xD3, ("Measurement channel 4", ty33, 8));
    (0xD4, ("Measurement channel 5", ty33, 8));
    (0xD5, ("Measurement channel 6", ty33, 8));
    (0xD6, ("Measurement channel 7", ty33, 8));
    (0xD7, ("Measurement channel 8", ty33, 8));
    (0xD8, ("Measurement channel 9", ty33, 8));
    (0xD9, ("Measurement channel 10", ty33, 8));
    (0xDA, ("Measurement channel 11", ty33, 8));
    (0xDB, ("Measurement channel 12", ty33, 8));
    (0xDC, ("Measurement channel 13", ty33, 8));
    (0xDD, ("Measurement channel 14", ty33, 8));
    (0xDE, ("Measurement channel 15", ty33, 8));
    (0xDF, ("Measurement channel 16", ty33, 8));
    (0xE0, ("Measurement channel 17", ty33, 8));
    (0xE1, ("Measurement channel 18", ty33, 8));
    (0xE2, ("Measurement channel 19", ty33, 8));
    (0xE3, ("Measurement channel 20", ty33, 8));
    (0xE4, ("Measurement channel 21", ty33, 8));
    (0xE5, ("Measurement channel 22", ty33, 8));
    (0xE6, ("Measurement channel 23", ty33, 8));
    (0xE7, ("Measurement channel 24", ty33, 8));
    (0xE8, ("Measurement channel 25", ty33, 8));
    (0xE9, ("Measurement channel 26", ty33, 8));
    (0xEA, ("Measurement channel 27", ty33, 8));
    (0xEB, ("Measurement channel 28", ty33, 8));
    (0xEC, ("Measurement channel 29", ty33, 8));
    (0xED, ("Measurement channel 30", ty33, 8));
    (0xEE, ("Measurement channel 31", ty33, 8));
    (0xEF, ("Measurement channel 32", ty33, 8))]);
  (* objects_scsl.py:997-1018 *)
  (0x02, 0x88, [
    (0x80, ("Operation status", ty0, 1));
    (0xD0, ("Electric energy meter classification", ty0, 1));
    (0xD1, ("Owner classification", ty0, 1));
    (0xD2, ("Phases and wires setting status", ty0, 1));
    (0xD3, ("Composite transformation ratio", ty3, 4));
    (0xD4, ("Multiplying factor for composite transformation ratio", ty0, 1));
    (0xD5, ("Meter type certification number", ty34, 10));
    (0xD6, ("Year and month of inspection expiry", ty19, 6));
    (0xD7, ("Number of effective digits for cumulative amounts of electric energy", ty0, 1));
    (0xE0, ("Measured cumulative amount of electric energy (normal direction)", ty3, 4));
    (0xE1, ("Unit for cumulative amounts of electric energy (normal and reverse directions)", ty0, 1));
    (0xE2, ("Historical data of measured cumulative amounts of electric energy (normal direction)", ty35, 194));
    (0xE3, ("Measured cumulative amounts of electric energy (reverse direction)", ty3, 4));
    (0xE4, ("Historical data of measured cumulative amounts of electric energy (reverse direction)", ty36, 194));
    (0xE5, ("Day for which the historical data of measured cumulative amounts of electric energy is to be retrieved", ty0, 1));
    (0xE7, ("Measured instantaneous electric energy", ty4, 4));
    (0xE8, ("Measured instantaneous currents", ty32, 4));
    (0xE9, ("Measured instantaneous voltages", ty21, 4));
    (0xEA, ("Cumulative amounts of electric energy measured at fixed time (normal direction)", ty37, 11));
    (0xEB, ("Cumulative amounts of electric energy measured at fixed time (reverse direction)", ty38, 11))]);
  (* objects_scsl.py:1021-1040 *)
  (0x02, 0x89, [
    (0x80, ("Operation status", ty0, 1));
    (0xE0, ("Gas meter classification setting", ty0, 1));
    (0xE1, ("Owner classification setting", ty0, 1));
    (0xE2, ("Measured cumulative gas consumption", ty3, 4));
    (0xE3, ("Unit for measured cumulative gas consumption", ty0, 1));
    (0xE4, ("Historical data of measured cumulative gas consumption", ty39, 194));
    (0xE5, ("Day setting for which the historical data of measured cumulative gas consumption is to be retrieved", ty0, 1));
    (0xE6, ("Detection of abnormal value in metering data", ty0, 1));
    (0xE7, ("Security data information", ty40, 10));
    (0xE8, ("Valve closure by the Center", ty0, 1));
    (0xE9, ("Permission from the Center to reopen the valve closed by the Center", ty0, 1));
    (0xEA, ("Emergency closure of shutoff valve", ty0, 1));
    (0xEB, ("Shutoff valve status", ty0, 1));
    (0xEC, ("Historical data of shutoff reasons", ty25, 3));
    (0xED, ("ID number setting", ty0, 6));
    (0xEE, ("Verification expiration setting", ty0, 6));
    (0xD0, ("Measured cumulative gas consumption information with date and time", ty41, 11));
    (0xD1, ("Historical information of cumulative gas consumption", ty42, 109))]);
  (* objects_scsl.py:1043-1066 *)
  (0x02, 0x90, [
    (0x80, ("Operation status", ty0, 1));
    (0xB0, ("Illuminance level", ty0, 1));
    (0xB1, ("Light color setting", ty0, 1));
    (0xB2, ("Illuminance level step setting", ty0, 1));
    (0xB3, ("Light color step setting", ty0, 1));
    (0xB4, ("Maximum specifiable values", ty15, 2));
    (0xB5, ("Maximum value of settable level for night lighting", ty15, 2));
    (0xB6, ("Lighting mode setting", ty0, 1));
    (0xB7, ("Illuminance level setting for main lighting", ty0, 1));
    (0xB8, ("Illuminance level step setting for main lighting", ty0, 1));
    (0xB9, ("Illuminance level setting for night lighting", ty0, 1));
    (0xBA, ("Illuminance level step setting for night lighting", ty0, 1));
    (0xBB, ("Light color setting for main lighting", ty0, 1));
    (0xBC, ("Light color level step setting for main lighting", ty0, 1));
    (0xBD, ("Light color setting for night lighting", ty0, 1));
    (0xBE, ("Light color level step setting for night lighting", ty0, 1));
    (0xBF, ("Lighting mode status in auto mode", ty0, 1));
    (0xC0, ("RGB setting for color lighting", ty43, 3));
    (0x90, ("ON timer reservation setting", ty0, 1));
    (0x91, ("ON timer setting", ty15, 2));
    (0x94, ("OFF timer reservation setting", ty0, 1));
    (0x95, ("OFF timer setting", ty15, 2))]);
  (* objects_scsl.py:1069-1073 *)
  (0x02, 0xA0, [
    (0x80, ("Operation status", ty0, 1));
    (0xB1, ("Sound generation setting", ty0, 1));
    (0xE0, ("Buzzer sound type", ty0, 1))]);
  (* objects_scsl.py:1076-1085 *)
  (0x03, 0xB2, [
    (0x80, ("Operation status", ty0, 1));
    (0xB0, ("Cover open/close status", ty0, 1));
    (0xB1, ("No-water warning", ty0, 1));
    (0xB2, ("Boil-up setting", ty0, 1));
    (0xE0, ("Boil-up/warmer mode setting", ty0, 1));
    (0xE1, ("Set value of warmer temperature", ty0, 1));
    (0xE2, ("Hot water discharge status", ty0, 1));
    (0xE3, ("Lock status", ty0, 1))]);
  (* objects_scsl.py:1088-1124 *)
  (0x03, 0xB7, [
    (0x80, ("Operation status", ty0, 1));
    (0xB0, ("Door open/close status", ty0, 1));
    (0xB1, ("Door open warning", ty0, 1));
    (0xB2, ("Refrigerator compartment door status", ty0, 1));
    (0xB3, ("Freezer compartment door status", ty0, 1));
    (0xB4, ("Ice compartment door status", ty0, 1));
    (0xB5, ("Vegetable compartment door status", ty0, 1));
    (0xB6, ("Multi-refrigera- ting mode compartment door", ty0, 1));
    (0xE0, ("Maximum allowable temperature setting level", ty13, 8));
    (0xE2, ("Refrigerator compartment temperature setting", ty11, 1));
    (0xE3, ("Freezer compartment temperature setting", ty11, 1));
    (0xE4, ("Ice temperature setting", ty11, 1));
    (0xE5, ("Vegetable compartment temperature setting", ty11, 1));
    (0xE6, ("Multi-refrigera- ting mode compartment temperature setting", ty11, 1));
    (0xE9, ("Refrigerator compartment temperature level setting", ty0, 1));
    (0xEA, ("Freezer compartment temperature level setting", ty0, 1));
    (0xEB, ("ice compartment temperature level setting", ty0, 1));
    (0xEC, ("Vegetable compartment temperature level setting", ty0, 1));
    (0xED, ("Multi-refrigera- ting mode compartment temperature level setting", ty0, 1));
    (0xD1, ("Measured refrigerator compartment temperature", ty11, 1));
    (0xD2, ("Measured freezer compartment temperature", ty11, 1));
    (0xD3, ("Measured subzero-fresh compartment temperature", ty11, 1));
    (0xD4, ("Measured vegetable compartment temperature", ty11, 1));
    (0xD5, ("Measured multi-refrigeratin g mode compartment temperature", ty11, 1));
    (0xD8, ("Compressor rotation speed", ty0, 2));
    (0xDA, ("Measured electric current consumption", ty0, 2));
    (0xDC, ("Rated power consumption", ty0, 2));
    (0xA0, ("Quick freeze function setting", ty0, 1));
    (0xA1, ("Quick refrigeration function setting", ty0, 1));
    (0xA4, ("Icemaker setting", ty0, 1));
    (0xA5, ("Icemaker operation status", ty0, 1));
    (0xA6, ("Icemaker tank status", ty0, 1));
    (0xA8, ("Refrigerator compartment humidification function setting", ty0, 1));
    (0xA9, ("Vegetable compartment humidification function setting", ty0, 1));
    (0xAD, ("Deodorization function setting", ty0, 1))]);
  (* objects_scsl.py:1127-1149 *)
  (0x03, 0xB8, [
    (0x80, ("Operation status", ty0, 1));
    (0xB0, ("Door open/close status", ty0, 1));
    (0xB1, ("Heating status", ty0, 1));
    (0xB2, ("Heating setting", ty0, 1));
    (0xE0, ("Heating mode setting", ty0, 1));
    (0xE1, ("Automatic heating setting", ty0, 1));
    (0xE2, ("Automatic heating level setting", ty44, 1));
    (0xD0, ("Automatic heating menu setting", ty44, 1));
    (0xD1, ("Oven mode setting", ty44, 1));
    (0xD5, ("Oven preheating setting", ty0, 1));
    (0xD6, ("Fermenting mode setting", ty0, 1));
    (0xE3, ("Chamber temperature setting", ty2, 2));
    (0xE4, ("Food temperature setting", ty2, 2));
    (0xE5, ("Heating time setting", ty25, 3));
    (0xE6, ("Remaining heating time setting", ty25, 3));
    (0xE7, ("Microwave heating power setting", ty1, 2));
    (0xE8, ("Prompt message setting", ty45, 8));
    (0xE9, ("“Accessories to combination microwave oven” setting", ty1, 2));
    (0xEA, ("Display character string setting", ty46, 40));
    (0xEB, ("Two-stage microwave heating setting (duration)", ty47, 6));
    (0xEC, ("Two-stage microwave heating setting (heating power)", ty21, 4))]);
  (* objects_scsl.py:1152-1163 *)
  (0x03, 0xB9, [
    (0x80, ("Operation status", ty0, 1));
    (0xB1, ("Heating status", ty26, 4));
    (0xB2, ("Heating setting", ty0, 1));
    (0xB3, ("“All stop” setting", ty0, 1));
    (0xE7, ("Heating power setting", ty26, 8));
    (0xE3, ("Heating temperature setting", ty9, 3));
    (0xE0, ("“Heating modes of stoves” setting", ty9, 3));
    (0x96, ("Relative time settings of OFF timers", ty48, 12));
    (0xA1, ("Child lock setting", ty0, 1));
    (0xA2, ("Radiant heater lock setting", ty0, 1))]);
  (* objects_scsl.py:1166-1177 *)
  (0x03, 0xBB, [
    (0x80, ("Operation status", ty0, 1));
    (0xB0, ("Cover open/close status", ty0, 1));
    (0xB1, ("Rice cooking status", ty0, 1));
    (0xB2, ("Rice cooking control setting", ty0, 1));
    (0xE1, ("Warmer setting", ty0, 1));
    (0xE5, ("Inner pot removal status", ty0, 1));
    (0xE6, ("Cover removal status", ty0, 1));
    (0x90, ("Rice cooking reservation setting", ty0, 1));
    (0x91, ("Set value of rice cooking reservation setting time", ty14, 2));
    (0x92, ("Set value of rice cooking reservation setting relative time", ty14, 2))]);
  (* objects_scsl.py:1180-1189 *)
  (0x03, 0xC5, [
    (0x80, ("Operation status", ty0, 1));
    (0xB0, ("Door/cover open/close status", ty0, 1));
    (0xB2, ("Washing machine setting", ty0, 1));
    (0xE1, ("Current stage of washing cycle", ty0, 1));
    (0xE6, ("Time remaining to complete washing cycle", ty9, 3));
    (0x90, ("ON timer reservation setting", ty0, 1));
    (0x91, ("ON timer setting", ty14, 2));
    (0x92, ("Relative time-based ON timer setting", ty14, 2))]);
  (* objects_scsl.py:1192-1201 *)
  (0x03, 0xC6, [
    (0x80, ("Operation status", ty0, 1));
    (0xB0, ("Door/cover open/close status", ty0, 1));
    (0xB2, ("Drying setting", ty0, 1));
    (0xE1, ("Drying status", ty0, 1));
    (0xE6, ("Remaining drying time", ty25, 3));
    (0x90, ("ON timer reservation setting", ty0, 1));
    (0x91, ("ON timer setting", ty15, 2));
    (0x92, ("Relative time-based ON timer setting", ty15, 2))]);
  (* objects_scsl.py:1204-1238 *)
  (0x03, 0xD3, [
    (0x80, ("Operation status", ty0, 1));
    (0xB0, ("Door/cover open/close status", ty0, 1));
    (0xB2, ("Washer and dryer setting", ty0, 1));
    (0xD0, ("Washer and dryer cycle setting 1 (Note 1)", ty0, 1));
    (0xD1, ("Washer and dryer cycle setting 2 (Note 1)", ty49, 1));
    (0xD2, ("Drying cycle setting (Note1)", ty49, 1));
    (0xD3, ("Washer and dryer cycle option list 1", ty50, 12));
    (0xD4, ("Washer and dryer cycle option list 2", ty51, 4));
    (0xD5, ("Washer and dryer cycle option list 3", ty51, 4));
    (0xD6, ("Water flow rate setting", ty49, 1));
    (0xD7, ("“Rotation speed for spin drying” setting", ty52, 2));
    (0xD8, ("“Degree of drying” setting", ty49, 1));
    (0xDB, ("Remaining washing time", ty53, 2));
    (0xDC, ("Remaining drying time", ty53, 2));
    (0xDF, ("Elapsed time on the ON timer", ty53, 2));
    (0xE1, ("Presoaking time setting", ty53, 2));
    (0xE2, ("Current stage of washer and dryer cycle", ty0, 1));
    (0xE3, ("Water volume setting 1", ty0, 1));
    (0xE4, ("Water volume setting 2", ty0, 1));
    (0xE5, ("Washing time setting", ty15, 2));
    (0xE6, ("“Number of times of rinsing” setting", ty0, 1));
    (0xE7, ("Rinsing process setting", ty54, 4));
    (0xE8, ("Spin drying time setting", ty0, 1));
    (0xE9, ("Drying time setting", ty15, 2));
    (0xEA, ("Warm water setting", ty0, 1));
    (0xEB, ("Bathtub water recycle setting", ty0, 1));
    (0xEC, ("Wrinkling minimization setting", ty0, 1));
    (0xED, ("Time remaining to complete washer and dryer cycle", ty15, 2));
    (0xEE, ("Door/cover lock    setting", ty0, 1));
    (0xEF, ("Washer and dryer cycle", ty55, 24));
    (0x90, ("ON timer reservation setting", ty0, 1));
    (0x91, ("ON timer setting", ty15, 2));
    (0x92, ("Relative time-based ON timer setting", ty15, 2))]);
  (* objects_scsl.py:1241-1245 *)
  (0x04, 0x01, [
    (0x80, ("Operation status", ty1, 1));
    (0xE0, ("Measured value of body weight", ty1, 2));
    (0xE1, ("Measured value of body fat", ty1, 2))]);
  (* objects_scsl.py:1248-1251 *)
  (0x05, 0xFD, [
    (0x80, ("Operation status", ty0, 1));
    (0xE0, ("Connected device", ty0, 12))]);
  (* objects_scsl.py:1254-1261 *)
  (0x06, 0x01, [
    (0x80, ("Operation status", ty0, 1));
    (0xB0, ("Display control setting", ty0, 1));
    (0xB1, ("Character string setting acceptance status", ty0, 1));
    (0xB2, ("Supported character codes", ty16, 2));
    (0xB3, ("Character string to present to the user", ty56, 0));
    (0xB4, ("Length of character string accepted", ty0, 2))]);
  (* objects_scsl.py:1264-1271 *)
  (0x06, 0x02, [
    (0x80, ("Operation status", ty0, 1));
    (0xB0, ("Display control setting", ty0, 1));
    (0xB1, ("Character string setting acceptance status", ty0, 1));
    (0xB2, ("Supported character codes", ty18, 2));
    (0xB3, ("Character string to present to the user", ty56, 0));
    (0xB4, ("Length of character string accepted", ty18, 2))])
].

(** uecho/std/objects_mra.py:30-1104. *)
Definition mra_names : list name_entry := [
  (* objects_mra.py:30-60 *)
  (0x00, 0x00, [
    (0x80, ("Operation status", ty57, 1));
    (0x81, ("Installation location", ty58, 0));
    (0x81, ("Installation location", ty22, 0));
    (0x82, ("Standard version information", ty58, 0));
    (0x83, ("Identification number", ty58, 0));
    (0x83, ("Identification number", ty58, 0));
    (0x84, ("Measured instantaneous power consumption", ty59, 0));
    (0x85, ("Measured cumulative electric energy consumption", ty59, 0));
    (0x86, ("Manufacturer's fault code", ty58, 0));
    (0x87, ("Current limit setting", ty59, 0));
    (0x88, ("Fault status", ty57, 1));
    (0x89, ("Fault description", ty58, 0));
    (0x8A, ("Manufacturer code", ty58, 0));
    (0x8B, ("Business facility code", ty58, 0));
    (0x8C, ("Product code", ty58, 0));
    (0x8D, ("Production number", ty58, 0));
    (0x8E, ("Production date", ty60, 0));
    (0x8F, ("Power-saving operation setting", ty57, 1));
    (0x93, ("Location information", ty58, 0));
    (0x93, ("Location information", ty58, 0));
    (0x93, ("Remote control setting", ty57, 1));
    (0x93, ("Remote control setting", ty57, 1));
    (0x97, ("Current time setting", ty61, 2));
    (0x98, ("Current date setting", ty60, 0));
    (0x99, ("Power limit setting", ty59, 0));
    (0x9A, ("Cumulative operating time", ty62, 0));
    (0x9D, ("Status change announcement property map", ty58, 0));
    (0x9E, ("Set property map", ty58, 0));
    (0x9F, ("Get property map", ty58, 0))]);
  (* objects_mra.py:63-83 *)
  (0x0E, 0xF0, [
    (0x80, ("Operating status", ty57, 1));
    (0x82, ("Version information", ty58, 0));
    (0x83, ("Identification number", ty58, 0));
    (0x88, ("Fault status", ty57, 1));
    (0x89, ("Fault description", ty59, 0));
    (0x8A, ("Manufacturer code", ty58, 0));
    (0x8B, ("Business facility code", ty58, 0));
    (0x8C, ("Product code", ty58, 0));
    (0x8D, ("Production number", ty58, 0));
    (0x8E, ("Production date", ty60, 0));
    (0x9D, ("Status change announcement property map", ty58, 0));
    (0x9E, ("Set property map", ty58, 0));
    (0x9F, ("Get property map", ty58, 0));
    (0xBF, ("Unique identifier data", ty58, 0));
    (0xD3, ("Number of self-node instances", ty58, 0));
    (0xD4, ("Number of self-node classes", ty59, 0));
    (0xD5, ("Instance list notification", ty62, 0));
    (0xD6, ("Self-node instance list S", ty62, 0));
    (0xD7, ("Self-node class list S", ty62, 0))]);
  (* objects_mra.py:86-97 *)
  (0x02, 0xA6, [
    (0xB0, ("Automatic water heating setting", ty57, 1));
    (0xB2, ("Water heating status", ty57, 1));
    (0xB3, ("Heater status", ty57, 1));
    (0xB6, ("Hot water supply mode setting for auxiliary heat source machine", ty57, 1));
    (0xB7, ("Heater mode setting for auxiliary heat source machine.", ty57, 1));
    (0xB8, ("Linkage mode setting for solar power generation", ty57, 1));
    (0xB9, ("Solar power generations utilization time", ty62, 0));
    (0xC3, ("Hot water supply status", ty57, 1));
    (0xE1, ("Measured amount of hot water remaining in tank", ty59, 0));
    (0xE2, ("Tank capacity", ty59, 0))]);
  (* objects_mra.py:100-102 *)
  (0x05, 0xFD, [
    (0xE0, ("Connected device", ty58, 0))]);
  (* objects_mra.py:105-134 *)
  (0x02, 0x72, [
    (0x90, ("ON timer reservation setting", ty57, 1));
    (0x91, ("ON timer setting", ty61, 2));
    (0x92, ("Set value of ON timer relative time", ty61, 2));
    (0xD0, ("Hot water heating status", ty57, 1));
    (0xD1, ("Set value of hot water temperature", ty59, 0));
    (0xD2, ("Hot water warmer setting", ty57, 1));
    (0xD4, ("Bath water volume setting 4", ty59, 0));
    (0xD5, ("Bath water volume setting 4 Maximum settable level", ty59, 0));
    (0xD6, ("Volume setting", ty59, 0));
    (0xD7, ("Mute setting", ty57, 1));
    (0xDA, ("Duration of Automatic operation setting", ty22, 0));
    (0xDB, ("Remaining Automatic operation time", ty22, 0));
    (0xE1, ("Set value of bath temperature", ty59, 0));
    (0xE2, ("Bath water heater status", ty57, 1));
    (0xE3, ("Bath Auto mode setting", ty57, 1));
    (0xE4, ("Bath additional boil-up operation setting", ty57, 1));
    (0xE5, ("Bath hot water adding operation setting", ty57, 1));
    (0xE6, ("Bath water temperature lowering operation setting", ty57, 1));
    (0xE7, ("Bath hot water volume setting 1", ty59, 0));
    (0xE8, ("Bath hot water volume setting 2", ty63, 0));
    (0xE9, ("Bathroom priority setting", ty57, 1));
    (0xE9, ("Bathroom priority setting", ty57, 1));
    (0xEA, ("Shower hot water supply status", ty57, 1));
    (0xEB, ("Kitchen hot water supply status", ty57, 1));
    (0xEC, ("Hot water warmer ON timer reservation setting", ty57, 1));
    (0xED, ("Set value of hot water warmer ON timer time", ty61, 2));
    (0xEE, ("Bath hot water volume setting 3", ty59, 0));
    (0xEF, ("Bath operation status monitor", ty57, 1))]);
  (* objects_mra.py:137-161 *)
  (0x03, 0xCE, [
    (0xB0, ("Operation mode", ty57, 1));
    (0xB0, ("Operation mode setting", ty57, 1));
    (0xBD, ("Used to acquire measurements of discharge temperature.", ty59, 0));
    (0xCA, ("Group information", ty58, 0));
    (0xCA, ("Group information", ty22, 0));
    (0xD0, ("This property indicates the type of the showcase.", ty57, 1));
    (0xD1, ("This property indicates the type of the showcase door.", ty57, 1));
    (0xD2, ("This property indicates refrigerator type, such as built-in or separate.", ty57, 1));
    (0xD3, ("This property indicates the shape of the showcase.", ty57, 1));
    (0xD4, ("This property indicates the purpose of the showcase, either refrigeration or freezing.", ty57, 1));
    (0xE0, ("Indicates on/off status of lighting installed inside the showcase.", ty57, 1));
    (0xE1, ("Indicates ON/OFF status of lighting installed outside the showcase.", ty57, 1));
    (0xE2, ("Indicates on/off status of compressor when showcase and compressor are a single unit.", ty57, 1));
    (0xE3, ("Used to acquire internal temperature measurements inside the showcase.", ty59, 0));
    (0xE4, ("Indicates rated power consumption necessary when showcase is cooling.", ty59, 0));
    (0xE5, ("Indicates rated power consumption when heater is operating during showcase defrosting.", ty59, 0));
    (0xE6, ("Indicates rated power consumption when showcase is operating fan motor.", ty59, 0));
    (0xE7, ("Indicates on/off status of showcases with heater for hot function.", ty57, 1));
    (0xEB, ("Indicates type of lighting installed inside the showcase.", ty57, 1));
    (0xEC, ("Indicates type of lighting installed outside the showcase.", ty57, 1));
    (0xED, ("Indicates lighting level in % installed inside of the showcase.", ty59, 0));
    (0xEE, ("Indicates lighting level in % installed outside of the showcase.", ty59, 0));
    (0xEF, ("Set temperature setting of inside the case and acquire the current setting.", ty59, 0))]);
  (* objects_mra.py:164-167 *)
  (0x00, 0xD0, [
    (0xE0, ("Measured illuminance value 1", ty59, 0));
    (0xE1, ("Measured illuminance value 2", ty59, 0))]);
  (* objects_mra.py:170-177 *)
  (0x06, 0x02, [
    (0x80, ("Operation status", ty57, 1));
    (0xB0, ("Display control setting", ty57, 1));
    (0xB1, ("Character string setting acceptance status", ty57, 1));
    (0xB2, ("Supported character codes", ty64, 2));
    (0xB3, ("Character string to present to the user", ty62, 0));
    (0xB4, ("Length of character string accepted", ty62, 0))]);
  (* objects_mra.py:180-239 *)
  (0x02, 0x7E, [
    (0xC0, ("Dischargeable capacity of vehicle mounted battery 1", ty59, 0));
    (0xC1, ("Dischargeable capacity of vehicle mounted battery 2", ty59, 0));
    (0xC1, ("Dischargeable capacity of vehicle mounted battery 2", ty59, 0));
    (0xC2, ("Remaining dischargeable capacity of vehicle mounted battery 1", ty59, 0));
    (0xC3, ("Remaining dischargeable capacity of vehicle mounted battery 2", ty59, 0));
    (0xC3, ("Remaining dischargeable capacity of vehicle mounted battery 2", ty59, 0));
    (0xC4, ("Remaining dischargeable capacity of vehicle mounted battery 3", ty59, 0));
    (0xC5, ("Rated charge capacity", ty59, 0));
    (0xC6, ("Rated discharge capacity", ty59, 0));
    (0xC7, ("Vehicle connection and chargeable/dischargeable status", ty57, 1));
    (0xC7, ("Vehicle connection and chargeable/dischargeable status", ty57, 1));
    (0xC7, ("Vehicle connection and chargeable/dischargeable status", ty57, 1));
    (0xC8, ("Minimum/maximum charging electric energy", ty62, 0));
    (0xC9, ("Minimum/maximum discharging electric energy", ty62, 0));
    (0xCA, ("Minimum/maximum charging current", ty62, 0));
    (0xCB, ("Minimum/maximum discharging current", ty62, 0));
    (0xCC, ("Charger/Discharger type", ty57, 1));
    (0xCD, ("Vehicle connection confirmation", ty57, 1));
    (0xCE, ("Chargeable capacity of vehicle mounted battery", ty59, 0));
    (0xCF, ("Remaining chargeable capacity of vehicle mounted battery", ty59, 0));
    (0xD0, ("Used capacity of vehicle mounted battery 1", ty59, 0));
    (0xD1, ("Used capacity of vehicle mounted battery 2", ty59, 0));
    (0xD1, ("Used capacity of vehicle mounted battery 2", ty59, 0));
    (0xD2, ("Rated voltage", ty59, 0));
    (0xD3, ("Measured instantaneous charging/discharging electric energy", ty59, 0));
    (0xD4, ("Measured instantaneous charging/discharging current", ty59, 0));
    (0xD5, ("Measured instantaneous charging/discharging voltage", ty59, 0));
    (0xD6, ("Measured cumulative amount of discharging electric energy", ty59, 0));
    (0xD7, ("Cumulative amount of discharging electric energy reset setting", ty57, 1));
    (0xD8, ("Measured cumulative amount of charging electric energy", ty59, 0));
    (0xD9, ("Cumulative amount of charging electric energy reset setting", ty57, 1));
    (0xDA, ("Operation mode setting", ty57, 1));
    (0xDA, ("Operation mode setting", ty57, 1));
    (0xDA, ("Operation mode setting", ty57, 1));
    (0xDA, ("Operation mode setting", ty57, 1));
    (0xDB, ("System interconnected type", ty57, 1));
    (0xDC, ("Charging method", ty57, 1));
    (0xDC, ("Charging method", ty57, 1));
    (0xDD, ("Discharging method", ty57, 1));
    (0xDD, ("Discharging method", ty57, 1));
    (0xDE, ("Purchasing electric power setting", ty59, 0));
    (0xDF, ("Re-interconnection permission setting", ty57, 1));
    (0xE0, ("Charging/Discharging electric power setting", ty59, 0));
    (0xE1, ("Working operation status", ty57, 1));
    (0xE2, ("Remaining stored electricity of vehicle mounted battery1", ty59, 0));
    (0xE3, ("Remaining stored electricity of vehicle mounted battery2", ty59, 0));
    (0xE3, ("Remaining stored electricity of vehicle mounted battery2", ty59, 0));
    (0xE4, ("Remaining stored electricity of vehicle mounted battery3", ty59, 0));
    (0xE5, ("Maintenance status", ty57, 1));
    (0xE6, ("Vehicle ID", ty62, 0));
    (0xE7, ("Charging amount setting 1", ty59, 0));
    (0xE9, ("Charging amount setting 2", ty59, 0));
    (0xEA, ("Discharging electric energy setting", ty59, 0));
    (0xEB, ("Charging electric energy setting", ty59, 0));
    (0xEC, ("Discharging electric energy setting", ty59, 0));
    (0xED, ("Charging current setting", ty59, 0));
    (0xEE, ("Discharging current setting", ty59, 0));
    (0xEF, ("Rated voltage (Independent)", ty59, 0))]);
  (* objects_mra.py:242-251 *)
  (0x01, 0x57, [
    (0xAB, ("Special state", ty57, 1));
    (0xB8, ("Rated power consumption of outdoor unit", ty62, 0));
    (0xBE, ("Measured outdoor unit temperature", ty22, 0));
    (0xCA, ("Group information", ty22, 0));
    (0xDB, ("Measured power consumption of outdoor unit", ty59, 0));
    (0xDD, ("Possible power savings for outdoor units", ty59, 0));
    (0xDE, ("Settings restricting power consumption of outdoor units", ty22, 0));
    (0xDF, ("Minimum power consumption for restricted outdoor unit", ty59, 0))]);
  (* objects_mra.py:254-256 *)
  (0x00, 0x12, [
    (0xE0, ("Measured value of relative humidity", ty59, 0))]);
  (* objects_mra.py:259-262 *)
  (0x02, 0x91, [
    (0x80, ("Operation status", ty57, 1));
    (0xB0, ("Light level Setting", ty59, 0))]);
  (* objects_mra.py:265-322 *)
  (0x02, 0x87, [
    (0xB0, ("Master rated capacity", ty59, 0));
    (0xB1, ("Number of measurement channels (simplex)", ty22, 0));
    (0xB2, ("Channel range specification for cumulative amount of electric power consumption measurement (simplex)", ty62, 0));
    (0xB3, ("Measured cumulative amount of electric power consumption list (simplex)", ty62, 0));
    (0xB4, ("Channel range specification for instantaneous current measurement (simplex)", ty62, 0));
    (0xB5, ("Measured instantaneous current list (simplex)", ty62, 0));
    (0xB6, ("Channel range specification for instantaneous power consumption measurement (simplex)", ty62, 0));
    (0xB7, ("Measured instantaneous power consumption list (simplex)", ty62, 0));
    (0xB8, ("Number of measurement channels (duplex)", ty22, 0));
    (0xB9, ("Channel range specification for cumulative amount of electric power consumption measurement (duplex)", ty62, 0));
    (0xBA, ("Measured cumulative amount of electric power consumption list (duplex)", ty62, 0));
    (0xBB, ("Channel range specification for instantaneous current measurement (duplex)", ty62, 0));
    (0xBC, ("Measured instantaneous current list (duplex)", ty62, 0));
    (0xBD, ("Channel range specification for instantaneous power consumption measurement (duplex)", ty62, 0));
    (0xBE, ("Measured instantaneous power consumption list (duplex)", ty62, 0));
    (0xC0, ("Measured cumulative amount of electric energy (normal direction)", ty22, 0));
    (0xC1, ("Measured cumulative amount of electric energy (reverse direction)", ty22, 0));
    (0xC2, ("Unit for cumulative amounts of electric energy", ty65, 1));
    (0xC3, ("Historical data of measured cumulative amounts of electric energy (normal direction)", ty62, 0));
    (0xC4, ("Historical data of measured cumulative amounts of electric energy (reverse direction)", ty62, 0));
    (0xC5, ("Day for which the historical data of measured cumulative amounts of electric energy is to be retrieved", ty22, 0));
    (0xC6, ("Measured instantaneous amount of electric energy", ty22, 0));
    (0xC7, ("Measured instantaneous currents", ty62, 0));
    (0xC8, ("Measured instantaneous voltages", ty62, 0));
    (0xD0, ("Measurement channel 1", ty62, 0));
    (0xD1, ("Measurement channel 2", ty62, 0));
    (0xD2, ("Measurement channel 3", ty62, 0));
    (0xD3, ("Measurement channel 4", ty62, 0));
    (0xD4, ("Measurement channel 5", ty62, 0));
    (0xD5, ("Measurement channel 6", ty62, 0));
    (0xD6, ("Measurement channel 7", ty62, 0));
    (0xD7, ("Measurement channel 8", ty62, 0));
    (0xD8, ("Measurement channel 9", ty62, 0));
    (0xD9, ("Measurement channel 10", ty62, 0));
    (0xDA, ("Measurement channel 11", ty62, 0));
    (0xDB, ("Measurement channel 12", ty62, 0));
    (0xDC, ("Measurement channel 13", ty62, 0));
    (0xDD, ("Measurement channel 14", ty62, 0));
    (0xDE, ("Measurement channel 15", ty62, 0));
    (0xDF, ("Measurement channel 16", ty62, 0));
    (0xE0, ("Measurement channel 17", ty62, 0));
    (0xE1, ("Measurement channel 18", ty62, 0));
    (0xE2, ("Measurement channel 19", ty62, 0));
    (0xE3, ("Measurement channel 20", ty62, 0));
    (0xE4, ("Measurement channel 21", ty62, 0));
    (0xE5, ("Measurement channel 22", ty62, 0));
    (0xE6, ("Measurement channel 23", ty62, 0));
    (0xE7, ("Measurement channel 24", ty62, 0));
    (0xE8, ("Measurement channel 25", ty62, 0));
    (0xE9, ("Measurement channel 26", ty62, 0));
    (0xEA, ("Measurement channel 27", ty62, 0));
    (0xEB, ("Measurement channel 28", ty62, 0));
    (0xEC, ("Measurement channel 29", ty62, 0));
    (0xED, ("Measurement channel 30", ty62, 0));
    (0xEE, ("Measurement channel 31", ty62, 0));
    (0xEF, ("Measurement channel 32", ty62, 0))]);
  (* objects_mra.py:325-377 *)
  (0x02, 0x6B, [
    (0x90, ("ON timer setting", ty57, 1));
    (0x91, ("ON timer setting", ty61, 2));
    (0xB0, ("Automatic water heating setting", ty57, 1));
    (0xB0, ("Automatic water heating setting", ty57, 1));
    (0xB1, ("Automatic water temperature control setting", ty57, 1));
    (0xB2, ("Water heater status", ty57, 1));
    (0xB2, ("Water heater status", ty57, 1));
    (0xB3, ("Water heating temperature setting", ty22, 0));
    (0xB4, ("Manual water heating stop days setting", ty22, 0));
    (0xB5, ("Relative time setting value for manual water heating OFF", ty61, 2));
    (0xB6, ("Tank operation mode setting", ty57, 1));
    (0xC0, ("Daytime reheating permission setting", ty57, 1));
    (0xC0, ("Daytime reheating permission setting", ty57, 1));
    (0xC1, ("Measured temperature of water in water heater", ty59, 0));
    (0xC2, ("Alarm status", ty64, 4));
    (0xC3, ("Hot water supply status", ty57, 1));
    (0xC4, ("Relative time setting for keeping bath temperature", ty61, 2));
    (0xC7, ("Participation in energy shift", ty57, 1));
    (0xC8, ("Standard time to start heating", ty59, 0));
    (0xC9, ("Number of energy shifts", ty59, 0));
    (0xCA, ("Daytime heating shift time 1", ty22, 0));
    (0xCB, ("Expected electric energy at daytime heating shift time 1", ty62, 0));
    (0xCC, ("Consumption of electric energy per hour 1", ty62, 0));
    (0xCD, ("Daytime heating shift time 2", ty22, 0));
    (0xCE, ("Expected electric energy at daytime heating shift time 2", ty62, 0));
    (0xCF, ("Consumption of electric energy per hour 2", ty62, 0));
    (0xD1, ("Temperature of supplied water setting", ty59, 0));
    (0xD3, ("Bath water temperature setting", ty59, 0));
    (0xD4, ("Bath water volume setting4", ty59, 0));
    (0xD5, ("Bath water volume setting4 maximum settable level", ty59, 0));
    (0xD6, ("Volume setting", ty59, 0));
    (0xD7, ("Mute setting", ty57, 1));
    (0xD8, ("Remaining hot water volume", ty59, 0));
    (0xD9, ("Surplus electric energy power prediction value", ty62, 0));
    (0xDB, ("Rated power consumption of H/P unit in wintertime", ty59, 0));
    (0xDC, ("Rated power consumption of H/P unit in in-between seasons", ty59, 0));
    (0xDD, ("Rated power consumption of H/P unit in summertime", ty59, 0));
    (0xE0, ("Bath water volume setting", ty59, 0));
    (0xE1, ("Measured amount of water remaining in tank", ty59, 0));
    (0xE2, ("Tank capacity", ty59, 0));
    (0xE3, ("Automatic Bath Water Heating Mode Setting", ty57, 1));
    (0xE4, ("Manual bath reheating operation setting", ty57, 1));
    (0xE5, ("Addition of hot water function setting", ty57, 1));
    (0xE5, ("Manual bath hot water addition function setting", ty57, 1));
    (0xE6, ("Slight bath water temperature lowering function setting", ty57, 1));
    (0xE6, ("Manual lukewarm water temperature lowering function setting.", ty57, 1));
    (0xE7, ("Bath water volume setting 1", ty59, 0));
    (0xE8, ("Bath water volume setting 2", ty63, 0));
    (0xE9, ("Bathroom priority setting", ty57, 1));
    (0xEA, ("Bath Operation Status Monitor", ty57, 1));
    (0xEE, ("Bath water volume setting 3", ty59, 0))]);
  (* objects_mra.py:380-405 *)
  (0x02, 0x90, [
    (0x80, ("Operation status", ty57, 1));
    (0x90, ("ON timer reservation setting", ty57, 1));
    (0x91, ("ON timer setting", ty61, 2));
    (0x94, ("OFF timer reservation setting", ty57, 1));
    (0x95, ("Time set by OFF timer", ty61, 2));
    (0xB0, ("Light level", ty59, 0));
    (0xB1, ("Light color setting", ty57, 1));
    (0xB1, ("Light color setting", ty57, 1));
    (0xB1, ("Light color setting", ty57, 1));
    (0xB2, ("Light level step setting", ty58, 0));
    (0xB3, ("Light color step setting", ty58, 0));
    (0xB4, ("Maximum specifiable values", ty62, 0));
    (0xB5, ("Maximum value of settable level for night lighting", ty62, 0));
    (0xB6, ("Lighting mode setting", ty57, 1));
    (0xB7, ("Light level setting for main lighting", ty59, 0));
    (0xB8, ("Light level step setting for main lighting", ty58, 0));
    (0xB9, ("Light level setting for night lighting", ty59, 0));
    (0xBA, ("Light level step setting for night lighting", ty58, 0));
    (0xBB, ("Light color setting for main lighting", ty57, 1));
    (0xBC, ("Light color level step setting for main lighting", ty58, 0));
    (0xBD, ("Light color setting for night lighting", ty57, 1));
    (0xBE, ("Light color level step setting for night lighting", ty58, 0));
    (0xBF, ("Lighting mode status in auto mode", ty57, 1));
    (0xC0, ("RGB setting for color lighting", ty62, 0))]);
  (* objects_mra.py:408-476 *)
  (0x02, 0x7D, [
    (0x83, ("Identification number", ty58, 0));
    (0x97, ("Current time setting", ty61, 2));
    (0x98, ("Current date setting", ty60, 0));
    (0xA0, ("AC effective capacity (charging)", ty59, 0));
    (0xA1, ("AC effective capacity (discharging)", ty59, 0));
    (0xA2, ("AC chargeable capacity", ty59, 0));
    (0xA3, ("AC dischargeable capacity", ty59, 0));
    (0xA4, ("AC chargeable electric energy", ty59, 0));
    (0xA5, ("AC dischargeable electric energy", ty59, 0));
    (0xA6, ("AC charge upper limit setting", ty59, 0));
    (0xA7, ("AC discharge lower limit setting", ty59, 0));
    (0xA8, ("AC measured cumulative charging electric energy", ty59, 0));
    (0xA9, ("AC measured cumulative discharging electric energy", ty59, 0));
    (0xAA, ("AC charge amount setting value", ty22, 0));
    (0xAB, ("AC discharge amount setting value", ty22, 0));
    (0xC1, ("Charging method", ty57, 1));
    (0xC2, ("Discharging method", ty57, 1));
    (0xC7, ("AC rated electric energy", ty59, 0));
    (0xC8, ("Minimum/maximum charging electric power", ty62, 0));
    (0xC8, ("Minimum/maximum charging electric power", ty62, 0));
    (0xC9, ("Minimum/maximum discharging electric power", ty62, 0));
    (0xC9, ("Minimum/maximum discharging electric power", ty62, 0));
    (0xCA, ("Minimum/maximum charging current", ty62, 0));
    (0xCB, ("Minimum/maximum discharging current", ty62, 0));
    (0xCC, ("Re-interconnection permission setting", ty57, 1));
    (0xCD, ("Operation permission setting", ty57, 1));
    (0xCE, ("Independent operation permission setting", ty57, 1));
    (0xCF, ("Working operation status", ty57, 1));
    (0xCF, ("Working operation status", ty57, 1));
    (0xD0, ("Rated electric energy", ty59, 0));
    (0xD1, ("Rated capacity", ty59, 0));
    (0xD2, ("Rated voltage", ty59, 0));
    (0xD3, ("Measured instantaneous charging/discharging electric energy", ty59, 0));
    (0xD4, ("Measured instantaneous charging/discharging current", ty59, 0));
    (0xD5, ("Measured instantaneous charging/discharging voltage", ty59, 0));
    (0xD6, ("Measured cumulative discharging electric energy", ty59, 0));
    (0xD7, ("Measured cumulative discharging electric energy reset setting", ty57, 1));
    (0xD8, ("Measured cumulative charging electric energy", ty59, 0));
    (0xD9, ("Measured cumulative charging electric energy reset setting", ty57, 1));
    (0xDA, ("Operation mode setting", ty57, 1));
    (0xDA, ("Operation mode setting", ty57, 1));
    (0xDA, ("Operation mode setting", ty57, 1));
    (0xDA, ("Operation mode setting", ty57, 1));
    (0xDB, ("System-interconnected type", ty57, 1));
    (0xDB, ("System-interconnected type", ty57, 1));
    (0xDC, ("Minimum/maximum charging power (Independent)", ty62, 0));
    (0xDD, ("Minimum/maximum discharging power (Independent)", ty62, 0));
    (0xDE, ("Minimum/maximum charging current (Independent)", ty62, 0));
    (0xDF, ("Minimum/maximum discharging current (Independent)", ty62, 0));
    (0xE0, ("Charging/discharging amount setting 1", ty22, 0));
    (0xE0, ("Charging/discharging amount setting 1", ty22, 0));
    (0xE1, ("Charging/discharging amount setting 2", ty22, 0));
    (0xE1, ("Charging/discharging amount setting 2", ty22, 0));
    (0xE2, ("Remaining stored electricity 1", ty59, 0));
    (0xE3, ("Remaining stored electricity 2", ty59, 0));
    (0xE4, ("Remaining stored electricity 3", ty59, 0));
    (0xE5, ("Battery state of health", ty59, 0));
    (0xE6, ("Battery type", ty57, 1));
    (0xE7, ("Charging amount setting 1", ty59, 0));
    (0xE8, ("Discharging amount setting 1", ty59, 0));
    (0xE9, ("Charging amount setting 2", ty59, 0));
    (0xEA, ("Discharging amount setting 2", ty59, 0));
    (0xEB, ("Charging electric energy setting", ty59, 0));
    (0xEC, ("Discharging electric energy setting", ty59, 0));
    (0xED, ("Charging current setting", ty59, 0));
    (0xEE, ("Discharging current setting", ty59, 0));
    (0xEF, ("Rated voltage (Independent)", ty59, 0))]);
  (* objects_mra.py:479-488 *)
  (0x01, 0x56, [
    (0x80, ("Operation status", ty57, 1));
    (0xAC, ("Thermostat state", ty57, 1));
    (0xAE, ("Current function (automatic operation mode)", ty57, 1));
    (0xB0, ("Operation mode setting", ty57, 1));
    (0xB3, ("Temperature setting", ty59, 0));
    (0xBB, ("Measured indoor unit temperature", ty22, 0));
    (0xCA, ("Group information", ty22, 0));
    (0xDB, ("Power consumption range for indoor units", ty57, 1))]);
  (* objects_mra.py:491-501 *)
  (0x03, 0xBB, [
    (0x90, ("Rice cooking reservation setting", ty57, 1));
    (0x91, ("Rice cooking reservation time setting", ty61, 2));
    (0x92, ("Rice cooking reservation relative time setting", ty61, 2));
    (0xB0, ("Cover closure status", ty57, 1));
    (0xB1, ("Rice cooking status", ty57, 1));
    (0xB2, ("Rice cooking control setting", ty57, 1));
    (0xE1, ("Warmer setting", ty57, 1));
    (0xE5, ("Inner pot removal status", ty57, 1));
    (0xE6, ("Cover removal status", ty57, 1))]);
  (* objects_mra.py:504-527 *)
  (0x02, 0x8A, [
    (0xC1, ("Monthly maximum electric power demand", ty22, 0));
    (0xC2, ("Cumulative maximum electric power demand", ty59, 0));
    (0xC3, ("Electric power demand at fixed time (30-minute average electric power)", ty62, 0));
    (0xC4, ("Number of effective digits of electric power demand", ty59, 0));
    (0xC5, ("Unit of electric power demand", ty65, 1));
    (0xC6, ("Historical data of measured electric power demand", ty62, 0));
    (0xC7, ("Unit of cumulative maximum electric power demand", ty65, 1));
    (0xCA, ("Measurement data of reactive electric power consumption (lag) for power factor measurement", ty62, 0));
    (0xCB, ("Measurement data of cumulative amount of reactive electric power consumption (lag) at fixed time for power factor measurement", ty62, 0));
    (0xCC, ("Number of effective digits for measurement data of cumulative amount of reactive electric power consumption (lag) for power factor measurement", ty59, 0));
    (0xCD, ("Unit of measurement data of cumulative amount of reactive electric power consumption (lag)", ty65, 1));
    (0xCE, ("Historical data of measurement data of cumulative amount of reactive electric power consumption (lag) for power factor measurement", ty62, 0));
    (0xD3, ("Coefficient", ty59, 0));
    (0xD4, ("Multiplying factor for coefficient", ty65, 1));
    (0xE0, ("Fixed date", ty59, 0));
    (0xE1, ("Day for which the historical data of measured cumulative amounts of electric energy is to be retrieved", ty22, 0));
    (0xE2, ("Measured cumulative amounts of active electric energy", ty62, 0));
    (0xE3, ("Cumulative amounts of active electric energy at fixed time", ty62, 0));
    (0xE4, ("Measurement data of cumulative amounts of active electric energy for power factor measurement", ty62, 0));
    (0xE5, ("Number of effective digits for cumulative amount of active electric energy", ty59, 0));
    (0xE6, ("Unit of cumulative amounts of effective electric energy", ty65, 1));
    (0xE7, ("Historical data of measured cumulative amount of active electric energy", ty62, 0))]);
  (* objects_mra.py:530-540 *)
  (0x03, 0xB9, [
    (0x96, ("Relative time settings of off timers", ty62, 0));
    (0xA1, ("Child lock setting", ty57, 1));
    (0xA2, ("Radiant heater lock setting", ty57, 1));
    (0xB1, ("Heating status", ty62, 0));
    (0xB2, ("Heating setting", ty62, 0));
    (0xB3, ("All stop setting", ty57, 1));
    (0xE0, ("Heating modes of stoves", ty62, 0));
    (0xE3, ("Heating temperature setting", ty62, 0));
    (0xE7, ("Heating power setting", ty62, 0))]);
  (* objects_mra.py:543-547 *)
  (0x00, 0x1D, [
    (0xB0, ("Detection threshold level", ty63, 0));
    (0xB1, ("VOC detection status", ty57, 1));
    (0xE0, ("Measured value of VOC concentration", ty59, 0))]);
  (* objects_mra.py:550-574 *)
  (0x02, 0x73, [
    (0x90, ("On timer reservation setting 1", ty57, 1));
    (0x91, ("On timer setting value", ty61, 2));
    (0x92, ("On relative timer setting value", ty61, 2));
    (0x94, ("Off timer reservation setting", ty57, 1));
    (0x95, ("OFF timer setting value", ty61, 2));
    (0x96, ("Off relative timer setting value", ty61, 2));
    (0xB0, ("Operation setting", ty57, 1));
    (0xB0, ("Operation setting", ty57, 1));
    (0xB1, ("Ventilation operation setting", ty22, 0));
    (0xB2, ("Bathroom prewarming operation setting", ty22, 0));
    (0xB2, ("Bathroom prewarming operation setting", ty22, 0));
    (0xB3, ("Bathroom heating operation setting", ty22, 0));
    (0xB4, ("Bathroom drying operation setting", ty22, 0));
    (0xB5, ("Cool air circulation operation setting", ty22, 0));
    (0xB6, ("Mist sauna operation setting", ty22, 0));
    (0xB7, ("Water mist operation setting", ty22, 0));
    (0xBA, ("Measured value of bathroom relative humidity", ty59, 0));
    (0xBB, ("Measured value of bathroom temperature", ty59, 0));
    (0xC2, ("Ventilation air flow rate setting", ty22, 0));
    (0xCF, ("Filter cleaning reminder sign setting", ty57, 1));
    (0xE0, ("Human body detection status", ty57, 1));
    (0xE1, ("On timer reservation setting 2", ty57, 1));
    (0xE1, ("On timer reservation setting 2", ty57, 1))]);
  (* objects_mra.py:577-585 *)
  (0x03, 0xD4, [
    (0xAA, ("Indicates that the showcase freezer is in an exceptional status.", ty57, 1));
    (0xB0, ("Operation mode setting", ty57, 1));
    (0xB0, ("Operation mode setting", ty57, 1));
    (0xBE, ("Used to acquire measurements of outdoor air temperature.", ty59, 0));
    (0xCA, ("Group information", ty58, 0));
    (0xCA, ("Group information", ty22, 0));
    (0xE2, ("Indicates compressor ON/OFF status.", ty57, 1))]);
  (* objects_mra.py:588-615 *)
  (0x02, 0x7C, [
    (0xC1, ("Measured temperature of water in water heater", ty59, 0));
    (0xC2, ("Rated power generation output", ty59, 0));
    (0xC2, ("Rated power generation output", ty59, 0));
    (0xC3, ("Heating value of hot water storage tank", ty59, 0));
    (0xC4, ("Measured instantaneous power generation output", ty59, 0));
    (0xC5, ("Measured cumulative power generation output", ty59, 0));
    (0xC6, ("Cumulative power generation output reset setting", ty57, 1));
    (0xC6, ("Cumulative energy generation output reset setting", ty57, 1));
    (0xC7, ("Measured instantaneous gas consumption", ty59, 0));
    (0xC8, ("Measured cumulative gas consumption", ty59, 0));
    (0xC9, ("Cumulative gas consumption reset setting", ty57, 1));
    (0xCA, ("Power generation setting", ty57, 1));
    (0xCA, ("Power generation setting", ty57, 1));
    (0xCB, ("Power generation status", ty57, 1));
    (0xCB, ("Power generation status", ty57, 1));
    (0xCC, ("Measured in-house instantaneous power consumption", ty59, 0));
    (0xCD, ("Measured in-house cumulative power consumption", ty59, 0));
    (0xCD, ("Measured in-house cumulative energy consumption", ty59, 0));
    (0xCE, ("In-house cumulative power consumption reset", ty57, 1));
    (0xCE, ("In-house cumulative energy consumption reset", ty57, 1));
    (0xD0, ("System interconnected type", ty57, 1));
    (0xD0, ("System interconnected type", ty57, 1));
    (0xD1, ("Power generation request time setting", ty22, 0));
    (0xD2, ("Designated power generation status", ty57, 1));
    (0xE1, ("Measured remaining hot water amount", ty59, 0));
    (0xE2, ("Tank capacity", ty59, 0))]);
  (* objects_mra.py:618-629 *)
  (0x02, 0x81, [
    (0xD0, ("Water flowmeter classification", ty57, 1));
    (0xD1, ("Owner classification", ty57, 1));
    (0xE0, ("Measured cumulative amount of flowing water", ty59, 0));
    (0xE1, ("Unit for measured Cumulative amounts of flowing water", ty65, 1));
    (0xE2, ("Historical data of measured cumulative amount of flowing water", ty66, 0));
    (0xE3, ("Detection of abnormal value in metering data", ty57, 1));
    (0xE4, ("Security data information", ty59, 0));
    (0xE5, ("ID number setting", ty58, 0));
    (0xE6, ("Verification expiration information", ty58, 0));
    (0xE7, ("Historical data 2 of measured cumulative amount of flowing water", ty66, 0))]);
  (* objects_mra.py:632-682 *)
  (0x01, 0x30, [
    (0x80, ("Operation status", ty57, 1));
    (0x8F, ("Power-saving operation setting", ty57, 1));
    (0x90, ("ON timer-based reservation setting", ty57, 1));
    (0x91, ("ON timer setting (time)", ty61, 2));
    (0x92, ("ON timer setting (relative time)", ty61, 2));
    (0x94, ("OFF timer-based reservation setting", ty57, 1));
    (0x95, ("OFF timer setting (time)", ty61, 2));
    (0x96, ("OFF timer setting (relative time)", ty61, 2));
    (0xA0, ("Air flow rate setting", ty22, 0));
    (0xA0, ("Air flow rate setting", ty22, 0));
    (0xA1, ("Automatic control of air flow direction setting", ty57, 1));
    (0xA3, ("Automatic swing of air flow setting", ty57, 1));
    (0xA4, ("Air flow direction (vertical) setting", ty57, 1));
    (0xA5, ("Air flow direction (horizontal) setting", ty57, 1));
    (0xAA, ("Special state", ty57, 1));
    (0xAB, ("Non-priority state", ty57, 1));
    (0xB0, ("Operation mode setting", ty57, 1));
    (0xB1, ("Automatic temperature control setting", ty57, 1));
    (0xB2, ("Normal/highspeed/silent operation setting", ty57, 1));
    (0xB3, ("Set temperature value", ty22, 0));
    (0xB4, ("Set value of relative humidity in dehumidifying mode", ty59, 0));
    (0xB5, ("Set temperature value in cooling mode", ty22, 0));
    (0xB6, ("Set temperature value in heating mode", ty22, 0));
    (0xB7, ("Set temperature value in dehumidifying mode", ty22, 0));
    (0xB8, ("Rated power consumption", ty62, 0));
    (0xB9, ("Measured value of current consumption", ty59, 0));
    (0xBA, ("Measured value of room relative humidity", ty22, 0));
    (0xBB, ("Measured value of room temperature", ty22, 0));
    (0xBB, ("Measured value of room temperature", ty22, 0));
    (0xBC, ("Set temperature value of user remote control", ty59, 0));
    (0xBD, ("Measured cooled air temperature", ty22, 0));
    (0xBE, ("Measured outdoor air temperature", ty22, 0));
    (0xBF, ("Relative temperature setting", ty22, 0));
    (0xC0, ("Ventilation function setting", ty57, 1));
    (0xC1, ("Humidifier function setting", ty57, 1));
    (0xC2, ("Ventilation air flow rate setting", ty22, 0));
    (0xC4, ("Degree of humidification setting", ty22, 0));
    (0xC6, ("Mounted air cleaning method", ty64, 1));
    (0xC7, ("Air purifier function setting", ty64, 8));
    (0xC8, ("Mounted air refresh method", ty64, 1));
    (0xC9, ("Air refresher function setting", ty64, 8));
    (0xCA, ("Mounted self-cleaning method", ty64, 1));
    (0xCB, ("Self-cleaning function setting", ty64, 8));
    (0xCC, ("Special function setting", ty57, 1));
    (0xCD, ("Operation status of components", ty64, 1));
    (0xCE, ("Thermostat setting override function", ty57, 1));
    (0xCE, ("Thermostat setting override function", ty57, 1));
    (0xCF, ("Air purification mode setting", ty57, 1));
    (0xD0, ("Buzzer", ty57, 1))]);
  (* objects_mra.py:685-693 *)
  (0x00, 0x22, [
    (0xE0, ("Cumulative amounts of electric energy", ty59, 0));
    (0xE1, ("Medium-capacity sensor instantaneous electric energy", ty59, 0));
    (0xE2, ("Small-capacity sensor instantaneous electric energy", ty59, 0));
    (0xE3, ("Large-capacity sensor instantaneous electric energy", ty59, 0));
    (0xE4, ("Cumulative amounts of electric energy measurement log", ty66, 0));
    (0xE4, ("Cumulative amounts of electric energy measurement log", ty66, 0));
    (0xE5, ("Effective voltage value", ty59, 0))]);
  (* objects_mra.py:696-729 *)
  (0x03, 0xD3, [
    (0x90, ("On timer reservation setting", ty57, 1));
    (0x91, ("On timer setting", ty61, 2));
    (0x92, ("Relative time-based on timer setting", ty61, 2));
    (0xB0, ("Door/cover open/close status", ty57, 1));
    (0xB2, ("Washer and dryer setting", ty57, 1));
    (0xD0, ("Washer and dryer cycle setting 1", ty57, 1));
    (0xD1, ("Washer and dryer cycle setting 2", ty57, 1));
    (0xD2, ("Drying cycle setting", ty57, 1));
    (0xD3, ("Washer and dryer cycle option list 1", ty58, 0));
    (0xD4, ("Washer and dryer cycle option list 2", ty58, 0));
    (0xD5, ("Washer and dryer cycle option list 3", ty58, 0));
    (0xD6, ("Water flow rate setting", ty22, 0));
    (0xD7, ("Rotation speed for spin drying setting", ty22, 0));
    (0xD8, ("Degree of drying setting", ty22, 0));
    (0xDB, ("Remaining washing time", ty22, 0));
    (0xDC, ("Remaining drying time", ty22, 0));
    (0xDF, ("Elapsed time on the ON timer", ty61, 2));
    (0xE1, ("Presoaking time setting", ty22, 0));
    (0xE2, ("Current stage of washer and dryer cycle", ty57, 1));
    (0xE3, ("Water volume setting 1", ty22, 0));
    (0xE4, ("Water volume setting 2", ty22, 0));
    (0xE5, ("Washing time setting", ty22, 0));
    (0xE6, ("Number of times of rinsing setting", ty22, 0));
    (0xE7, ("Rinsing process setting", ty58, 0));
    (0xE8, ("Spin drying time setting", ty22, 0));
    (0xE9, ("Drying time setting", ty22, 0));
    (0xEA, ("Warm water setting", ty22, 0));
    (0xEB, ("Bathtub water recycle setting", ty57, 1));
    (0xEC, ("Wrinkling minimization setting", ty57, 1));
    (0xED, ("Time remaining to complete washer and dryer cycle", ty22, 0));
    (0xEE, ("Door/cover lock setting", ty57, 1));
    (0xEF, ("Washer and dryer cycle", ty58, 0))]);
  (* objects_mra.py:732-749 *)
  (0x02, 0x63, [
    (0x89, ("Fault description (Recoverable faults)", ty57, 2));
    (0x90, ("Timer operation setting", ty57, 1));
    (0xD0, ("Opening speed setting", ty57, 1));
    (0xD1, ("Closing speed setting", ty57, 1));
    (0xD2, ("Operation time", ty59, 0));
    (0xE0, ("Open/close operation setting", ty57, 1));
    (0xE1, ("Degree-of-opening setting", ty59, 0));
    (0xE2, ("Blind angle setting", ty59, 0));
    (0xE3, ("Opening/closing speed setting", ty57, 1));
    (0xE5, ("Electric lock setting", ty57, 1));
    (0xE8, ("Remote operation setting status", ty57, 1));
    (0xE9, ("Selective degree-of-opening setting", ty57, 1));
    (0xEA, ("Open/closed status", ty57, 1));
    (0xED, ("Slit degree-of-opening", ty63, 0));
    (0xEE, ("One-time opening speed setting", ty57, 1));
    (0xEF, ("One-time closing speed setting", ty57, 1))]);
  (* objects_mra.py:752-754 *)
  (0x00, 0x1B, [
    (0xE0, ("Measured value of CO2 concentration", ty59, 0))]);
  (* objects_mra.py:757-761 *)
  (0x00, 0x23, [
    (0xE0, ("Measured current value 1", ty59, 0));
    (0xE1, ("Rated voltage to be measured", ty59, 0));
    (0xE2, ("Measured current value 2", ty59, 0))]);
  (* objects_mra.py:764-786 *)
  (0x02, 0xA1, [
    (0xC5, ("Rated charge capacity", ty59, 0));
    (0xC7, ("Vehicle connection and chargeable status", ty57, 1));
    (0xC7, ("Vehicle connection and chargeable status", ty57, 1));
    (0xC8, ("Minimum/maximum charging electric energy", ty62, 0));
    (0xCA, ("Minimum/maximum charging electric current", ty62, 0));
    (0xCC, ("Charger type", ty57, 1));
    (0xCD, ("Vehicle connection confirmation", ty57, 1));
    (0xCE, ("Chargeable capacity of vehicle mounted battery", ty59, 0));
    (0xCF, ("Remaining chargeable capacity of vehicle mounted battery", ty59, 0));
    (0xD0, ("Used capacity of vehicle mounted battery 1", ty59, 0));
    (0xD2, ("Rated voltage", ty59, 0));
    (0xD3, ("Measured instantaneous charging electric energy", ty59, 0));
    (0xD8, ("Measured cumulative amount of charging electric energy", ty59, 0));
    (0xD9, ("Cumulative amount of charging electric energy reset setting", ty57, 1));
    (0xDA, ("Operation mode setting", ty57, 1));
    (0xE2, ("Remaining stored electricity of vehicle mounted battery1", ty59, 0));
    (0xE4, ("Remaining stored electricity of vehicle mounted battery3", ty59, 0));
    (0xE6, ("Vehicle ID", ty62, 0));
    (0xE7, ("Charging amount setting", ty59, 0));
    (0xEB, ("Charging electric energy setting", ty59, 0));
    (0xED, ("Charging current setting", ty59, 0))]);
  (* objects_mra.py:789-793 *)
  (0x02, 0x80, [
    (0xE0, ("Cumulative amounts of electric energy measurement value", ty59, 0));
    (0xE2, ("Cumulative amounts of electric energy unit", ty65, 1));
    (0xE3, ("Cumulative amounts of electric energy measurement log 1", ty66, 0))]);
  (* objects_mra.py:796-799 *)
  (0x00, 0x03, [
    (0xB1, ("Emergency occurrence status", ty57, 1));
    (0xBF, ("Emergency occurrence status resetting", ty57, 1))]);
  (* objects_mra.py:802-833 *)
  (0x02, 0x79, [
    (0x83, ("Identification number", ty58, 0));
    (0x97, ("Current time setting", ty61, 2));
    (0x98, ("Current date setting", ty60, 0));
    (0xA0, ("Output power control setting 1", ty59, 0));
    (0xA1, ("Output power control setting 2", ty59, 0));
    (0xA2, ("Function to control purchase surplus electricity setting", ty57, 1));
    (0xB0, ("Output power controlling schedule", ty62, 0));
    (0xB1, ("Next access date and time", ty22, 0));
    (0xB2, ("Function to control the type of surplus electricity purchase", ty57, 1));
    (0xB3, ("Output power change time setting value", ty59, 0));
    (0xB4, ("Upper limit clip setting value", ty22, 0));
    (0xC0, ("Operation power factor setting value", ty59, 0));
    (0xC1, ("FIT contract type", ty57, 1));
    (0xC2, ("Self-consumption type", ty57, 1));
    (0xC3, ("Capacity approved by equipment", ty22, 0));
    (0xC4, ("Conversion coefficient", ty59, 0));
    (0xD0, ("System-interconnected type", ty57, 1));
    (0xD0, ("System-interconnected type", ty57, 1));
    (0xD1, ("Output power restraint status", ty57, 1));
    (0xE0, ("Measured instantaneous amount of electricity generated", ty59, 0));
    (0xE1, ("Measured cumulative amount of electric energy generated", ty59, 0));
    (0xE2, ("Resetting cumulative amount of electric energy generated", ty57, 1));
    (0xE3, ("Measured cumulative amount of electric energy sold", ty59, 0));
    (0xE4, ("Resetting cumulative amount of electric energy sold", ty57, 1));
    (0xE5, ("Power generation output limit setting 1", ty59, 0));
    (0xE6, ("Power generation output limit setting 2", ty59, 0));
    (0xE7, ("Limit setting for the amount of electricity sold", ty59, 0));
    (0xE8, ("Rated power generation output (System-interconnected)", ty59, 0));
    (0xE8, ("Rated power generation output (System-interconnected)", ty22, 0));
    (0xE9, ("Rated power generation output (Independent)", ty59, 0))]);
  (* objects_mra.py:836-857 *)
  (0x02, 0x7B, [
    (0x80, ("Operation status", ty57, 1));
    (0x90, ("ON timer reservation setting", ty57, 1));
    (0x91, ("Time set by ON timer", ty61, 2));
    (0x92, ("Relative ON timer setting", ty61, 2));
    (0x94, ("OFF timer reservation setting", ty57, 1));
    (0x95, ("Time set by OFF timer", ty61, 2));
    (0x96, ("Relative OFF timer setting", ty61, 2));
    (0xD1, ("Maximum temperature level", ty59, 0));
    (0xE0, ("Set temperature value", ty22, 0));
    (0xE1, ("Set temperature level by 15 steps", ty22, 0));
    (0xE2, ("Measured room temperature", ty22, 0));
    (0xE3, ("Measured floor temperature", ty22, 0));
    (0xE3, ("Measured floor temperature", ty22, 0));
    (0xE4, ("Zone change setting", ty64, 1));
    (0xE5, ("Special operation setting", ty57, 1));
    (0xE6, ("Daily timer setting", ty57, 1));
    (0xE7, ("Daily timer setting 1", ty64, 6));
    (0xE8, ("Daily timer setting 2", ty64, 6));
    (0xE9, ("Rated power consumption", ty59, 0));
    (0xEA, ("Power consumption measurement method", ty57, 1))]);
  (* objects_mra.py:860-863 *)
  (0x00, 0x16, [
    (0xB0, ("Detection threshold level", ty63, 0));
    (0xB1, ("Bath heating detection status", ty57, 1))]);
  (* objects_mra.py:866-886 *)
  (0x02, 0x7A, [
    (0x90, ("ON timer reservation setting", ty57, 1));
    (0x91, ("ON timer setting", ty61, 2));
    (0x92, ("Relative ON timer setting", ty61, 2));
    (0x94, ("OFF timer reservation setting", ty57, 1));
    (0x95, ("Time set by OFF timer", ty61, 2));
    (0x96, ("Relative OFF timer setting", ty61, 2));
    (0xD1, ("Cold water temperature setting 2 Maximum allowable setting level", ty59, 0));
    (0xD2, ("Warm water temperature setting 2 Maximum allowable setting level", ty59, 0));
    (0xE0, ("Operation mode setting", ty57, 1));
    (0xE1, ("Water temperature setting 1", ty22, 0));
    (0xE2, ("Water temperature setting 2", ty22, 0));
    (0xE3, ("Measured temperature of outward water (Exit water Temperature)", ty22, 0));
    (0xE4, ("Measured temperature of inward water (Entrance water Temperature)", ty22, 0));
    (0xE5, ("Special operation setting", ty57, 1));
    (0xE6, ("Daily timer setting", ty57, 1));
    (0xE7, ("Daily timer setting 1", ty58, 0));
    (0xE8, ("Daily timer setting 2", ty58, 0));
    (0xE9, ("Rated power consumption", ty62, 0));
    (0xEA, ("Power consumption measurement method", ty57, 1))]);
  (* objects_mra.py:889-905 *)
  (0x02, 0x8D, [
    (0xD3, ("Electric energy coefficient", ty59, 0));
    (0xD4, ("Unit for cumulative amount of electric energy (normal and reverse directions)", ty65, 1));
    (0xD7, ("Number of effective digits for cumulative amounts of electric energy", ty59, 0));
    (0xD8, ("Electric current coefficient", ty59, 0));
    (0xD9, ("Voltage coefficient", ty59, 0));
    (0xE0, ("Day for which the historical data of measured cumulative amounts of electric energy is to be retrieved", ty22, 0));
    (0xE1, ("Measured cumulative amount of electric energy(normal direction)", ty22, 0));
    (0xE2, ("Historical data of measured cumulative amounts of electric energy (normal direction)", ty62, 0));
    (0xE3, ("Measured cumulative amount of electric energy (reverse direction)", ty22, 0));
    (0xE4, ("Historical data of measured cumulative amounts of electric energy (reverse direction)", ty62, 0));
    (0xE7, ("Measured instantaneous electric power", ty22, 0));
    (0xE8, ("Measured instantaneous currents", ty62, 0));
    (0xE9, ("Measured instantaneous voltages", ty62, 0));
    (0xEA, ("Cumulative amounts of electric energy measured at fixed time(normal direction)", ty62, 0));
    (0xEB, ("Cumulative amounts of electric energy measured at fixed time(reverse direction)", ty62, 0))]);
  (* objects_mra.py:908-912 *)
  (0x02, 0xA3, [
    (0xB0, ("Light level setting", ty59, 0));
    (0xC0, ("Scene control setting", ty22, 0));
    (0xC1, ("Number that can assign scene control setting", ty59, 0))]);
  (* objects_mra.py:915-919 *)
  (0x01, 0x33, [
    (0x80, ("Operation status", ty57, 1));
    (0xA0, ("Set value of ventilation air flow rate", ty22, 0));
    (0xBF, ("Ventilation Auto setting", ty57, 1))]);
  (* objects_mra.py:922-944 *)
  (0x02, 0x8E, [
    (0x98, ("Current date setting", ty60, 0));
    (0xD0, ("Device type", ty58, 0));
    (0xD1, ("Device ID", ty58, 0));
    (0xD2, ("Tolerance class", ty57, 1));
    (0xD3, ("Number of days to retain historical data of measured cumulative amounts of electric energy", ty22, 0));
    (0xD4, ("Unit for cumulative amounts of electric energy", ty65, 1));
    (0xD5, ("Day on which the historical data of measured cumulative amounts of electric energy is to be retrieved", ty22, 0));
    (0xD6, ("Identification number of device to be metered", ty58, 0));
    (0xDA, ("Current hour, minute, and second setting", ty61, 0));
    (0xDB, ("Time synchronization status", ty57, 1));
    (0xE0, ("Measured cumulative amounts of electric energy (AC input)", ty59, 0));
    (0xE1, ("Historical data of measured cumulative amounts of electric energy (AC input)", ty62, 0));
    (0xE2, ("Measured cumulative amounts of electric energy (AC output)", ty59, 0));
    (0xE3, ("Historical data of measured cumulative amounts of electric energy (AC output)", ty62, 0));
    (0xE4, ("Measured cumulative amounts of electric energy (output during a power outage)", ty22, 0));
    (0xE5, ("Historical data of measured cumulative amounts of electric energy (output during a power outage )", ty62, 0));
    (0xE6, ("Cumulative amounts of electric energy measured at fixed time (AC input)", ty62, 0));
    (0xE7, ("Cumulative amounts of electric energy measured at fixed time (AC output)", ty62, 0));
    (0xE8, ("Cumulative amounts of electric energy measured at fixed time (output during a power outage)", ty62, 0));
    (0xE9, ("Measured instantaneous electric power (AC input/output)", ty22, 0));
    (0xEA, ("Measured instantaneous electric power (output during a power outage)", ty22, 0))]);
  (* objects_mra.py:947-956 *)
  (0x02, 0x6F, [
    (0xE0, ("Lock setting1", ty57, 1));
    (0xE1, ("Lock setting 2", ty57, 1));
    (0xE2, ("Lock status of door guard", ty57, 1));
    (0xE3, ("Door open/close status", ty57, 1));
    (0xE4, ("Occupant/ non-occupant status", ty57, 1));
    (0xE5, ("Alarm status", ty57, 1));
    (0xE6, ("Auto lock mode setting", ty57, 1));
    (0xE7, ("Battery level", ty57, 1))]);
  (* objects_mra.py:959-962 *)
  (0x02, 0x82, [
    (0xE0, ("Cumulative amount of gas consumption measurement value", ty59, 0));
    (0xE2, ("Cumulative amounts of gas consumption measurement log", ty66, 0))]);
  (* objects_mra.py:965-988 *)
  (0x01, 0x34, [
    (0x80, ("Operation status", ty57, 1));
    (0xA0, ("Set value of ventilation air flow rate", ty22, 0));
    (0xB0, ("Ventilation mode automatic setting", ty57, 1));
    (0xB1, ("Ventilation method setting", ty57, 1));
    (0xB2, ("Ventilation mode setting", ty57, 1));
    (0xB3, ("Cooling / heating high-low setting", ty63, 0));
    (0xB4, ("Set value of room relative humidity", ty59, 0));
    (0xB9, ("Measured value of electric current consumption", ty59, 0));
    (0xBA, ("Measured value of room relative humidity", ty22, 0));
    (0xBE, ("Measured value of outdoor air temperature", ty22, 0));
    (0xBF, ("Ventilation auto setting", ty57, 1));
    (0xC0, ("Measured value of CO2 concentration", ty59, 0));
    (0xC1, ("Smoke (cigarette) detection status", ty57, 1));
    (0xC2, ("Pollution detection status", ty57, 1));
    (0xCA, ("Measured value of outdoor relative humidity", ty22, 0));
    (0xD0, ("Measured value of return air temperature", ty66, 0));
    (0xD1, ("Measured value of return relative humidity", ty66, 0));
    (0xD2, ("Measured value of charging air temperature", ty22, 0));
    (0xD3, ("Measured value of charging relative humidity", ty22, 0));
    (0xD4, ("Measured value of discharging air temperature", ty22, 0));
    (0xD5, ("Measured value of discharging air relative humidity", ty22, 0));
    (0xE0, ("Heat exchanger operation setting", ty57, 1))]);
  (* objects_mra.py:991-1014 *)
  (0x05, 0xFF, [
    (0xC0, ("Controller ID", ty58, 0));
    (0xC1, ("Number of devices controlled", ty59, 0));
    (0xC2, ("Index", ty59, 0));
    (0xC3, ("Device ID", ty58, 0));
    (0xC4, ("Device type", ty58, 0));
    (0xC5, ("Name", ty58, 0));
    (0xC6, ("Connection status", ty57, 1));
    (0xC7, ("Business code of the device to be controlled", ty58, 0));
    (0xC7, ("Business code of the device to be controlled", ty58, 0));
    (0xC8, ("Product code of the device to be controlled", ty58, 0));
    (0xC8, ("Product code of the device to be controlled", ty58, 0));
    (0xC9, ("Manufacture date of the device to be controlled", ty60, 0));
    (0xC9, ("Manufacture date of the device to be controlled", ty60, 0));
    (0xCA, ("Registered information renewal date of the device to be controlled", ty60, 0));
    (0xCA, ("Registered information renewal date of the device to be controlled", ty60, 0));
    (0xCB, ("Registered information renewal version information of the device to be controlled", ty59, 0));
    (0xCB, ("Registered information renewal version information of the device to be controlled", ty59, 0));
    (0xCC, ("Place to install device to be controlled", ty58, 0));
    (0xCD, ("Fault status of device to be controlled", ty57, 1));
    (0xCE, ("Set property map for device to be controlled", ty58, 0));
    (0xCF, ("Get property map for device to be controlled", ty58, 0));
    (0xE0, ("Address of installation location", ty58, 0))]);
  (* objects_mra.py:1017-1027 *)
  (0x02, 0xA4, [
    (0xB0, ("Light level setting", ty59, 0));
    (0xC0, ("Scene control setting", ty22, 0));
    (0xC1, ("Number that can assign scene control setting.", ty59, 0));
    (0xC2, ("Power consumption rate list", ty66, 0));
    (0xC3, ("Power consumption when fully lighted", ty59, 0));
    (0xC4, ("Possible power savings", ty59, 0));
    (0xC5, ("Power consumption limit setting", ty22, 0));
    (0xC6, ("Automatic operation controlling setting", ty57, 1));
    (0xC7, ("Fading control change time setting", ty59, 0))]);
  (* objects_mra.py:1030-1032 *)
  (0x00, 0x11, [
    (0xE0, ("Measured temperature value", ty59, 0))]);
  (* objects_mra.py:1035-1038 *)
  (0x00, 0x07, [
    (0xB0, ("Detection threshold level", ty63, 0));
    (0xB1, ("Human detection status", ty57, 1))]);
  (* objects_mra.py:1041-1076 *)
  (0x03, 0xB7, [
    (0xA0, ("Quick freeze function setting", ty57, 1));
    (0xA1, ("Quick refrigeration function setting", ty57, 1));
    (0xA4, ("Icemaker setting", ty57, 1));
    (0xA5, ("Icemaker operation status", ty57, 1));
    (0xA6, ("Icemaker tank status", ty57, 1));
    (0xA8, ("Refrigerator compartment humidification function setting", ty57, 1));
    (0xA9, ("Vegetable compartment humidification function setting", ty57, 1));
    (0xAD, ("Deodorization function setting", ty57, 1));
    (0xB0, ("Door open/close status", ty57, 1));
    (0xB1, ("Door open warning", ty57, 1));
    (0xB2, ("Refrigerator compartment door status", ty57, 1));
    (0xB3, ("Freezer compartment door status", ty57, 1));
    (0xB4, ("Ice compartment door status", ty57, 1));
    (0xB5, ("Vegetable compartment door status", ty57, 1));
    (0xB6, ("Multi-refrigerating mode compartment door status", ty57, 1));
    (0xD1, ("Measured refrigerator compartment temperature", ty59, 0));
    (0xD2, ("Measured freezer compartment temperature", ty59, 0));
    (0xD3, ("Measured subzero-fresh compartment temperature", ty59, 0));
    (0xD4, ("Measured vegetable compartment temperature", ty59, 0));
    (0xD5, ("Measured multi-refrigerating mode compartment temperature", ty59, 0));
    (0xD8, ("Compressor rotation speed", ty62, 0));
    (0xDA, ("Measured electric current consumption", ty59, 0));
    (0xDC, ("Rated power consumption", ty59, 0));
    (0xE0, ("Maximum allowable temperature setting level", ty62, 0));
    (0xE2, ("Refrigerator compartment temperature setting", ty59, 0));
    (0xE3, ("Freezer compartment temperature setting", ty59, 0));
    (0xE4, ("Ice compartment temperature setting", ty59, 0));
    (0xE5, ("Vegetable compartment temperature setting", ty59, 0));
    (0xE6, ("Multi-refrigerating mode compartment temperature setting", ty59, 0));
    (0xE9, ("Refrigerator compartment temperature level setting", ty59, 0));
    (0xEA, ("Freezer compartment temperature level setting", ty59, 0));
    (0xEB, ("Ice compartment temperature level setting", ty59, 0));
    (0xEC, ("Vegetable compartment temperature level setting", ty59, 0));
    (0xED, ("Multi-refrigerating mode compartment temperature level setting", ty59, 0))]);
  (* objects_mra.py:1079-1086 *)
  (0x01, 0x35, [
    (0x80, ("Operation status", ty57, 1));
    (0xA0, ("Air flow rate setting", ty22, 0));
    (0xC0, ("Air pollution detection status", ty57, 1));
    (0xC1, ("Smoke (cigarette) detection status", ty57, 1));
    (0xC2, ("Optical catalyst operation setting", ty57, 1));
    (0xE1, ("Filter change notice", ty57, 1))]);
  (* objects_mra.py:1089-1104 *)
  (0x02, 0x88, [
    (0xD3, ("Coefficient", ty59, 0));
    (0xD7, ("Number of effective digits for cumulative amounts of electric energy", ty59, 0));
    (0xE0, ("Measured cumulative amount of electric energy (normal direction)", ty22, 0));
    (0xE1, ("Unit for cumulative amounts of electric energy (normal and reverse directions)", ty65, 1));
    (0xE2, ("Historical data of measured cumulative amounts of electric energy 1 (normal direction)", ty62, 0));
    (0xE3, ("Measured cumulative amount of electric energy (reverse direction)", ty22, 0));
    (0xE4, ("Historical data of measured cumulative amounts of electric energy 1 (reverse direction)", ty62, 0));
    (0xE5, ("Day for which the historical data of measured cumulative amounts of electric energy is to be retrieved 1", ty22, 0));
    (0xE7, ("Measured instantaneous electric power", ty22, 0));
    (0xE8, ("Measured instantaneous currents", ty62, 0));
    (0xEA, ("Cumulative amounts of electric energy measured at fixed time (normal direction)", ty62, 0));
    (0xEB, ("Cumulative amounts of electric energy measured at fixed time (reverse direction)", ty62, 0));
    (0xEC, ("Historical data of measured cumulative amounts of electric energy 2 (normal and reverse directions)", ty62, 0));
    (0xED, ("Day for which the historical data of measured cumulative amounts of electric energy is to be retrieved 2", ty62, 0))])
].
