(** C116: a note writes to the chips for one voice only.
    [of_voice v n e] (TouchSpec): write [e] belongs to voice [n] of kind [v].
    Every history, every mode of assignment, melody, percussion, samples and special mode. *)
From Verif Require Import Base SynthModel SynthSpec MidiModel MidiSpec RomData DevModel DevSpec AppModel AppSpec AppExampleProofs SoundSpec.
From Verif Require Import ChipExampleProofs TouchSpec TouchProofs TouchExampleProofs.

(** All chip writes of a Note On belong to one device channel; that channel was silent, or
    serving the note's own MIDI channel. *)
Theorem C116_on : forall r hw mem ops c p v s0 tr0 s o, history r hw mem ops s0 tr0 ->
  history r hw mem (ops ++ [AMsg (MNoteOn c p v)]) s (tr0 ++ o) -> 1 <= v ->
  (forall e, In e o -> ~ chip_write e) \/
  exists i d, dev_at (a_midi s0) i d /\ (d_midi d = c \/ d_on d = false) /\ forall e, In e o -> of_voice (d_ops d) (d_num d) e.
Proof. exact note_on_voice. Qed.
Print Assumptions C116_on.
Example C116_on_nonvacuous : exists s0 tr0 s o d e,
  history (shipped false) no_cartridge blank_memory dyn_note s0 tr0 /\
  history (shipped false) no_cartridge blank_memory (dyn_note ++ [AMsg (MNoteOn 0 64 100)]) s (tr0 ++ o) /\
  dev_at (a_midi s0) 0 d /\ d_midi d = 0 /\ d_on d = true /\ In e o /\ of_fm 1 e.
Proof. exact touch_on_example. Qed.

(** So a voice that sounds for another MIDI channel is not written to: an FM channel (but
    for FM channel 3, whose operators channels 11 to 13 play in special mode), or a PSG
    channel. *)
Theorem C116_keeps : forall r hw mem ops c p v s0 tr0 s o, history r hw mem ops s0 tr0 ->
  history r hw mem (ops ++ [AMsg (MNoteOn c p v)]) s (tr0 ++ o) -> 1 <= v ->
  forall j d, dev_at (a_midi s0) j d -> d_on d = true -> d_midi d <> c -> forall e, In e o ->
  (0 <= j < 6 -> j <> 2 -> ~ of_fm j e) /\ (6 <= j < 10 -> ~ of_psg (j - 6) e).
Proof. exact note_on_keeps. Qed.
Print Assumptions C116_keeps.
Example C116_keeps_nonvacuous : exists s0 tr0 s o d e,
  history (shipped false) no_cartridge blank_memory dyn_note s0 tr0 /\
  history (shipped false) no_cartridge blank_memory (dyn_note ++ [AMsg (MNoteOn 1 64 100)]) s (tr0 ++ o) /\
  dev_at (a_midi s0) 0 d /\ d_midi d = 0 /\ d_on d = true /\ In e o /\ of_fm 1 e.
Proof. exact touch_keeps_example. Qed.

(** False without the exception: a note of MIDI channel 12 writes to FM channel 3 while that
    sounds a note of MIDI channel 3, even outside special mode (midi_fm_sm.c:14-18, synth.c:450-464). *)
Theorem C116_third_refuted : exists s0 tr0 s o d e,
  history (shipped false) no_cartridge blank_memory organ s0 tr0 /\
  history (shipped false) no_cartridge blank_memory (organ ++ [AMsg (MNoteOn 11 60 30)]) s (tr0 ++ o) /\
  dev_at (a_midi s0) 2 d /\ d_midi d = 2 /\ d_on d = true /\ In e o /\ of_fm 2 e.
Proof. exact chip_special_example. Qed.
Print Assumptions C116_third_refuted.

(** Every chip write of a Note Off (or Note On with velocity 0) belongs to a device channel
    that was sounding that key of that MIDI channel. *)
Theorem C116_off : forall r hw mem ops c p msg s0 tr0 s o, history r hw mem ops s0 tr0 -> lets_go c p msg ->
  history r hw mem (ops ++ [AMsg msg]) s (tr0 ++ o) ->
  forall e, In e o -> chip_write e ->
  exists i d, dev_at (a_midi s0) i d /\ d_midi d = c /\ d_on d = true /\ note_of d = p /\ of_voice (d_ops d) (d_num d) e.
Proof. exact note_off_voice. Qed.
Print Assumptions C116_off.
Example C116_off_nonvacuous : exists s0 tr0 s o d e,
  history (shipped false) no_cartridge blank_memory duet s0 tr0 /\ lets_go 1 64 (MNoteOn 1 64 0) /\
  history (shipped false) no_cartridge blank_memory (duet ++ [AMsg (MNoteOn 1 64 0)]) s (tr0 ++ o) /\
  dev_at (a_midi s0) 0 d /\ d_midi d = 0 /\ d_on d = true /\ In e o /\ chip_write e /\ of_fm 1 e.
Proof. exact touch_off_example. Qed.
