(** Witness for the statement about System Reset. *)
From Verif Require Import Base SynthModel PsgModel MidiModel DevModel AppModel AppSpec AppExampleProofs.

(** Controllers, an instrument stored under program 0, drums on the DAC,
    remapping and sounding notes. *)
Definition eventful : list aop :=
  [AMsg (MCc 0 20 99); AMsg (MCc 0 7 40); AMsg (MProgram 0 41); AMsg (MNoteOn 0 60 100); AMsg (MCc 0 87 0); AMsg (MCc 5 78 127);
   AMsg (MSysex [0x00; 0x22; 0x77; 0x00; 0x03; 0x06]); AMsg (MNoteOn 3 72 90); AFrame].
Definition test_notes : list aop := [AMsg (MNoteOn 0 60 100); AMsg (MNoteOn 6 72 90); AMsg (MProgram 1 7); AFrame].
Definition answered (x : res app unit) : nat := match x with Done _ _ o => length o | Fault _ => 0 end.
Lemma c49_example :
  without registers eventful /\ Forall aop_ok test_notes /\
  (exists s tr, history (shipped false) no_cartridge blank_memory eventful s tr /\ answered (app_run (shipped false) test_notes s) = 134%nat) /\
  (exists s tr, history (shipped false) no_cartridge blank_memory (eventful ++ [AMsg MReset]) s tr /\ answered (app_run (shipped false) test_notes s) = 41%nat) /\
  (exists s tr, history (shipped false) no_cartridge blank_memory [] s tr).
Proof.
  split; [|split; [apply aops_ok; reflexivity|split; [|split]]].
  - intros m H [b E]. subst m. cbn in H. repeat destruct H as [H|H]; try discriminate; contradiction.
  - apply (app_see false eventful (fun s _ => answered (app_run (shipped false) test_notes s))); [reflexivity|vm_compute; reflexivity].
  - apply (app_see false (eventful ++ [AMsg MReset]) (fun s _ => answered (app_run (shipped false) test_notes s))); [reflexivity|vm_compute; reflexivity].
  - destruct (app_see false [] (fun _ _ => tt) tt) as (s & tr & H & _); [reflexivity|vm_compute; reflexivity|]. eauto.
Qed.
