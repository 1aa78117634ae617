(** Property C80: objects and properties on the heap behave as values. *)
From Verif Require Import PyBase BytesM EsvM MsgM PropM ObjM DbData DbM HeapM SpecHeap DictP MapP HeapP.

Theorem C80_values : forall (PS : PySet) l, fair_program vstart l ->
  snd (hrun db_tables hstart l) = snd (vrun vstart l) /\
  map (view (hs_heap (fst (hrun db_tables hstart l)))) (hs_objs (fst (hrun db_tables hstart l))) = vs_objs (fst (vrun vstart l)) /\
  map (view (hs_heap (fst (hrun db_tables hstart l)))) (map snd db_tables) = dvals all_std_objects.
Proof. exact L_C80_values. Qed.
Print Assumptions C80_values.
Theorem C80_shared_boundary : forall PS : PySet,
  last (snd (hrun db_tables hstart twice_added)) ANone = ABytes (Some [0x31%Z]) /\
  last (snd (vrun vstart twice_added)) ANone = ABytes (Some [0x30%Z]).
Proof. exact L_C80_shared_boundary. Qed.
Print Assumptions C80_shared_boundary.
Theorem C80_database_boundary : exists PS : PySet,
  snd (hrun db_tables hstart table_written) = [ABool (Ok true); AUnit (Ok tt); ABytes (Some [0x45%Z])] /\
  snd (vrun vstart table_written) = [ABool (Ok true); AUnit (Ok tt); ABytes (Some [])].
Proof. exact L_C80_database_boundary. Qed.
Print Assumptions C80_database_boundary.
(** A program that creates a light and a copy of it, replaces a property while it still holds the old
    one, writes through every reference it has, and asks both objects. *)
Definition qx_read (deoj : Z) : msg := mkmsg 1 0x05FF01 deoj 0x62 [mkprop 0x80 []; mkprop 0xB0 []] [] [] None None.
Definition qx_write (deoj : Z) : msg := mkmsg 2 0x05FF01 deoj 0x61 [mkprop 0x80 [0x31]] [] [] None None.
Definition qx_program : list cmd :=
  [CStandard' (PInt 0x029101); CCopy 0; CProp 0x80 [0x30]; CPropAttr 0 0 1; CPropAttr 0 1 1; CAdd 0 0;
   CPropCopy 0; CProp 0x80 [0x39]; CPropAttr 2 0 1; CAdd 1 2; CRecv 0 (qx_write 0x029101); CPropRead 0; CPropRead 1; CRead 1 0x80;
   CPropData 2 [0x55]; CRead 1 0x80; CRead 0 0x80; CAdd 0 1; CPropData 0 [0x77]; CRead 0 0x80; CPropRead 0; CAdd 1 0; CRead 1 0x80; CPropRead 2;
   CRecv 0 (qx_read 0x029101); CStandard' (PInt 0x029103); CRead 2 0x80].
Example qx_fair : @fair_program pyset_nodup vstart qx_program.
Proof.
  unfold qx_program. cbn [fair_program fair]. repeat (split; [first [exact I | intros o k; vm_compute; discriminate]|]). exact I.
Qed.
Example qx_answers : snd (@hrun pyset_nodup db_tables hstart qx_program) =
  [AUnit (Ok tt); ANone; ANone; AUnit (Ok tt); AUnit (Ok tt); ABool (Ok true);
   ANone; ANone; AUnit (Ok tt); ABool (Ok true); AMsg (Ok (Some (mkmsg 2 0x029101 0x05FF01 0x71 [mkprop 0x80 []] [] [] None None)));
   ABytes (Some [0x31]); ABytes (Some [0x30]); ABytes (Some [0x39]);
   ANone; ABytes (Some [0x55]); ABytes (Some [0x31]); ABool (Ok true); ANone; ABytes (Some [0x30]); ABytes (Some [0x77]);
   ABool (Ok true); ABytes (Some [0x77]); ABytes (Some [0x55]);
   AMsg (Ok (Some (mkmsg 1 0x029101 0x05FF01 0x72 [mkprop 0x80 [0x30]; mkprop 0xB0 []] [] [] None None)));
   AUnit (Ok tt); ABytes (Some [])].
Proof. vm_compute. reflexivity. Qed.
Example qx_not_fair : ~ @fair_program pyset_nodup vstart twice_added.
Proof. intros (_ & _ & _ & _ & H & _). exact (H 0%nat 0x80 eq_refl). Qed.
