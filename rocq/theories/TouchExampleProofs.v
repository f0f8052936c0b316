(** Witnesses for the voices that notes write to. *)
From Verif Require Import Base BaseLemmas SynthModel SynthSpec MidiModel RomData DevModel DevSpec AppModel AppSpec AppProofs AppExampleProofs.
From Verif Require Import SoundSpec SoundExampleProofs ChipExampleProofs TouchSpec.
From Verif Require MidiSpec.
Import MidiSpec.

(** Dynamic mode: a note sounds on FM channel 1, the next goes to FM channel 2. *)
Definition dyn_note : list aop := [AMsg (own_sysex 3 [1]); AMsg (MNoteOn 0 60 100)].
Lemma touch_on_example : exists s0 tr0 s o d e,
  history (shipped false) no_cartridge blank_memory dyn_note s0 tr0 /\
  history (shipped false) no_cartridge blank_memory (dyn_note ++ [AMsg (MNoteOn 0 64 100)]) s (tr0 ++ o) /\
  dev_at (a_midi s0) 0 d /\ d_midi d = 0 /\ d_on d = true /\ In e o /\ of_fm 1 e.
Proof.
  destruct (see_last dyn_note (MNoteOn 0 64 100) (busy 0 0) (of_fmb 1)) as (s0 & tr0 & s & o & K0 & K & B & e & He & Hg); [reflexivity|vm_compute; reflexivity|].
  destruct (busy_ok _ _ _ B) as (d & Hd & H1 & H2). exists s0, tr0, s, o, d, e. repeat (split; [assumption|]). apply of_fmb_ok, Hg.
Qed.
Lemma touch_keeps_example : exists s0 tr0 s o d e,
  history (shipped false) no_cartridge blank_memory dyn_note s0 tr0 /\
  history (shipped false) no_cartridge blank_memory (dyn_note ++ [AMsg (MNoteOn 1 64 100)]) s (tr0 ++ o) /\
  dev_at (a_midi s0) 0 d /\ d_midi d = 0 /\ d_on d = true /\ In e o /\ of_fm 1 e.
Proof.
  destruct (see_last dyn_note (MNoteOn 1 64 100) (busy 0 0) (of_fmb 1)) as (s0 & tr0 & s & o & K0 & K & B & e & He & Hg); [reflexivity|vm_compute; reflexivity|].
  destruct (busy_ok _ _ _ B) as (d & Hd & H1 & H2). exists s0, tr0, s, o, d, e. repeat (split; [assumption|]). apply of_fmb_ok, Hg.
Qed.
Lemma touch_off_example : exists s0 tr0 s o d e,
  history (shipped false) no_cartridge blank_memory duet s0 tr0 /\ lets_go 1 64 (MNoteOn 1 64 0) /\
  history (shipped false) no_cartridge blank_memory (duet ++ [AMsg (MNoteOn 1 64 0)]) s (tr0 ++ o) /\
  dev_at (a_midi s0) 0 d /\ d_midi d = 0 /\ d_on d = true /\ In e o /\ chip_write e /\ of_fm 1 e.
Proof.
  destruct (see_last duet (MNoteOn 1 64 0) (busy 0 0) (of_fmb 1)) as (s0 & tr0 & s & o & K0 & K & B & e & He & Hg); [reflexivity|vm_compute; reflexivity|].
  destruct (busy_ok _ _ _ B) as (d & Hd & H1 & H2). exists s0, tr0, s, o, d, e. split; [exact K0|]. split; [right; reflexivity|]. repeat (split; [assumption|]).
  split; [destruct e; try discriminate Hg; exact Logic.I|]. apply of_fmb_ok, Hg.
Qed.
