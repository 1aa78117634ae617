(** Model of /repo/uecho/protocol/esv.py (class ESV); uecho/esv.py only subclasses it. *)
From Verif Require Import PyBase.

(** Constants, uecho/protocol/esv.py:20-36. *)
Definition UNKNOWN : Z := 0x00.
Definition WRITE_REQUEST : Z := 0x60.
Definition WRITE_REQUEST_RESPONSE_REQUIRED : Z := 0x61.
Definition READ_REQUEST : Z := 0x62.
Definition NOTIFICATION_REQUEST : Z := 0x63.
Definition WRITE_READ_REQUEST : Z := 0x6E.
Definition WRITE_RESPONSE : Z := 0x71.
Definition READ_RESPONSE : Z := 0x72.
Definition NOTIFICATION : Z := 0x73.
Definition NOTIFICATION_RESPONSE_REQUIRED : Z := 0x74.
Definition NOTIFICATION_RESPONSE : Z := 0x7A.
Definition WRITE_READ_RESPONSE : Z := 0x7E.
Definition WRITE_REQUEST_ERROR : Z := 0x50.
Definition WRITE_REQUEST_RESPONSE_REQUIRED_ERROR : Z := 0x51.
Definition READ_REQUEST_ERROR : Z := 0x52.
Definition NOTIFICATION_REQUEST_ERROR : Z := 0x53.
Definition WRITE_READ_REQUEST_ERROR : Z := 0x5E.

(** is_request, esv.py:41-59. *)
Definition is_request (e : Z) : bool :=
  if e =? WRITE_REQUEST then true
  else if e =? WRITE_REQUEST_RESPONSE_REQUIRED then true
  else if e =? READ_REQUEST then true
  else if e =? NOTIFICATION_REQUEST then true
  else if e =? WRITE_READ_REQUEST then true
  else if e =? NOTIFICATION_RESPONSE_REQUIRED then true
  else false.

(** is_response, esv.py:61-62. *)
Definition is_response (e : Z) : bool := negb (is_request e).

(** is_write_request, esv.py:64-76. *)
Definition is_write_request (e : Z) : bool :=
  if e =? WRITE_REQUEST then true
  else if e =? WRITE_READ_REQUEST then true
  else if e =? WRITE_REQUEST_RESPONSE_REQUIRED then true
  else false.

(** is_read_request, esv.py:78-88. *)
Definition is_read_request (e : Z) : bool :=
  if e =? READ_REQUEST then true
  else if e =? WRITE_READ_REQUEST then true
  else false.

(** is_notification_request, esv.py:90-98. *)
Definition is_notification_request (e : Z) : bool :=
  if e =? NOTIFICATION_REQUEST then true else false.

(** is_write_response, esv.py:100-110. *)
Definition is_write_response (e : Z) : bool :=
  if e =? WRITE_RESPONSE then true
  else if e =? WRITE_READ_RESPONSE then true
  else false.

(** is_read_response, esv.py:112-122. *)
Definition is_read_response (e : Z) : bool :=
  if e =? READ_RESPONSE then true
  else if e =? WRITE_READ_RESPONSE then true
  else false.

(** is_notification, esv.py:124-134. *)
Definition is_notification (e : Z) : bool :=
  if e =? NOTIFICATION then true
  else if e =? NOTIFICATION_RESPONSE_REQUIRED then true
  else false.

(** is_notification_response, esv.py:136-143. *)
Definition is_notification_response (e : Z) : bool :=
  if e =? NOTIFICATION_RESPONSE then true else false.

(** is_response_required, esv.py:145-161. *)
Definition is_response_required (e : Z) : bool :=
  if e =? READ_REQUEST then true
  else if e =? NOTIFICATION_REQUEST then true
  else if e =? WRITE_READ_REQUEST then true
  else if e =? WRITE_REQUEST_RESPONSE_REQUIRED then true
  else if e =? NOTIFICATION_RESPONSE_REQUIRED then true
  else false.

(** is_write_read_request, esv.py:163-171. *)
Definition is_write_read_request (e : Z) : bool :=
  if e =? WRITE_READ_REQUEST then true else false.

(** is_write_read_response, esv.py:173-183. *)
Definition is_write_read_response (e : Z) : bool :=
  if e =? WRITE_READ_RESPONSE then true
  else if e =? WRITE_READ_REQUEST_ERROR then true
  else false.
