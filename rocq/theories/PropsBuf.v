(** Property C101: property data as values. *)
From Verif Require Import PyBase BytesM EsvM MsgM TidM BufM SpecBuf BufP.
Local Open Scope nat_scope.

(** C101: as long as the application changes no byte array in place, everything is as if each variable and
    each property had its own bytes. *)
Theorem C101_library : forall l s s' e, buf_ok s -> no_edits l -> brun s l = (s', e) -> vrun (as_values s) l = (as_values s', e).
Proof. exact L_C101_library. Qed.
Print Assumptions C101_library.
(** C101: the same if it changes only arrays that neither a property nor another variable refers to. *)
Theorem C101_values_partial : forall l s s' e, buf_ok s -> edits_alone s l -> brun s l = (s', e) -> vrun (as_values s) l = (as_values s', e).
Proof. exact L_C101_values_partial. Qed.
Print Assumptions C101_values_partial.
(** C101: then the data of a property changes only by storing into this property. *)
Theorem C101_kept_partial : forall l s c, buf_ok s -> edits_alone s l -> (forall v, ~ In (BSet c v) l) -> (forall v, ~ In (BRecord c v) l) ->
  forall d, snd (brun s [BRead c]) = [OBytes d] -> exists e, snd (brun s (l ++ [BRead c])) = e ++ [OBytes d].
Proof. exact L_C101_kept_partial. Qed.
Print Assumptions C101_kept_partial.
(** C101: a change in place is seen by exactly the properties that refer to the array. *)
Theorem C101_edit : forall s v f r d, nth_error (b_vars s) v = Some r -> nth_error (b_heap s) r = Some (true, d) ->
  forall c k, nth_error (b_cells s) c = Some k ->
  snd (brun s [BEdit v f; BRead c]) = [OBytes (if Nat.eqb k r then f d else snd (nth k (b_heap s) (false, [])))].
Proof. exact L_C101_edit. Qed.
Print Assumptions C101_edit.
(** C101: finding.  set_property_data keeps the caller's array: changing it later changes the property. *)
Theorem C101_set_refuted : forall s c d d', c < length (b_cells s) ->
  (* the application stores a byte array, and then changes it *)
  snd (brun s [BNew true d; BSet c (length (b_vars s)); BEdit (length (b_vars s)) (fun _ => d'); BRead c]) = [OBytes d'].
Proof. exact L_C101_set_refuted. Qed.
Print Assumptions C101_set_refuted.
(** C101: finding.  After a controller wrote a property, get_property_data gives out the array itself. *)
Theorem C101_get_refuted : forall s c d d', c < length (b_cells s) ->
  (* a controller writes the property; the application gets the data and changes what it got *)
  snd (brun s [BArrive d; BSet c (length (b_vars s)); BGet c; BEdit (S (length (b_vars s))) (fun _ => d'); BRead c]) = [OBytes d'].
Proof. exact L_C101_get_refuted. Qed.
Print Assumptions C101_get_refuted.
(** C101: finding.  The message that post_message returns shares its arrays with the controller's record of
    the device: who changes them changes the record, and listeners miss the next change. *)
Theorem C101_response_refuted : forall s c d0 d d', buf_ok s -> snd (brun s [BRead c]) = [OBytes d0] -> d <> d0 ->
  (* the controller records a response; the caller of post_message changes the data of the message it got; the device
     announces the data that is there now: the listeners are not told *)
  snd (brun s [BArrive d; BRecord c (length (b_vars s)); BEdit (length (b_vars s)) (fun _ => d'); BRead c;
               BArrive d'; BRecord c (S (length (b_vars s)))]) = [OTold true; OBytes d'; OTold false].
Proof. exact L_C101_response_refuted. Qed.
Print Assumptions C101_response_refuted.
(** C101: finding.  A message refers to the properties added to it: what is sent is their data when the message
    is sent. *)
Theorem C101_added_refuted : forall s d d',
  (* a property is added to a message and stored into before the message is sent *)
  snd (brun s [BNew false d; BProp (length (b_vars s)); BMsg; BAdd (length (b_msgs s)) (length (b_cells s));
               BNew false d'; BSet (length (b_cells s)) (S (length (b_vars s))); BSend (length (b_msgs s))]) = [OFrame [d']].
Proof. exact L_C101_added_refuted. Qed.
Print Assumptions C101_added_refuted.
Theorem C101_ex : buf_ok buf0 /\ edits_alone buf0 buf_prog /\
  snd (brun buf0 buf_prog) = [OBytes [5; 6]%Z; OBytes [7%Z]; OBytes [7%Z]; OFrame [[5; 6]%Z; [9%Z]]; ORefused; OBytes [9%Z]; OTold false].
Proof. exact L_C101_ex. Qed.
Print Assumptions C101_ex.
