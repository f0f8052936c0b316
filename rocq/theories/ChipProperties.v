(** C30, C33, C36, C38 and C42 at the chips: what one message writes to the YM2612 and
    the PSG after any history, and which keys the FM channels sound.  [history r hw mem ops s tr]
    is explained in AppSpec; [of_fm n e] and [of_psg n e] (SoundSpec) say that the write [e]
    addresses a register of channel [n] of the FM chip or of the PSG. *)
From Verif Require Import Base SynthModel SynthSpec MidiModel DevModel DevSpec AppModel AppSpec AppExampleProofs.
From Verif Require Import SoundSpec ChipProofs ChipExampleProofs.
From Verif Require MidiSpec.
Import MidiSpec.

(** ** C30: a released key at the chip *)
(** After Note Off no FM channel that is keyed on plays that note for that channel.
    Missing: histories with raw register writes, Reset All Controllers, the DAC switch, portamento,
    or both re-assignment and a General MIDI reset (C30_refuted and the C31 refutations). *)
Theorem C30_chip_partial : forall r hw mem ops c p s tr n,
  history r hw mem (ops ++ [AMsg (MNoteOff c p)]) s tr -> 0 <= n < 6 ->
  without raw_write ops -> without (is_cc 121) ops -> without (is_cc 78) ops -> without (is_cc 65) ops ->
  without remapping ops \/ without gm_reset_msg ops ->
  exists b d, key_state tr n = Some b /\ dev_at (a_midi s) n d /\
    (b = true -> d_on d = true /\ ~ (d_midi d = c /\ note_of d = p)).
Proof. exact released_at_chip. Qed.
Print Assumptions C30_chip_partial.
Example C30_chip_nonvacuous :
  without raw_write duet /\ without (is_cc 78) duet /\ without (is_cc 65) duet /\ without remapping duet /\
  exists s tr, history (shipped false) no_cartridge blank_memory (duet ++ [AMsg (MNoteOff 1 64)]) s tr /\
    key_state tr 0 = Some true /\ key_state tr 1 = Some false.
Proof. exact released_example. Qed.

(** ** C33: All Notes Off and All Sound Off at the chip *)
Theorem C33_chip_partial : forall r hw mem ops c k v s tr n d, k = 123 \/ k = 120 ->
  history r hw mem (ops ++ [AMsg (MCc c k v)]) s tr -> 0 <= n < 6 ->
  without raw_write ops -> without (is_cc 121) ops -> without (is_cc 78) ops ->
  without remapping ops \/ without gm_reset_msg ops ->
  dev_at (a_midi s) n d -> d_midi d = c -> key_state tr n = Some false.
Proof. exact panic_at_chip. Qed.
Print Assumptions C33_chip_partial.
Example C33_chip_nonvacuous : exists s tr d,
  history (shipped false) no_cartridge blank_memory (duet ++ [AMsg (MCc 1 123 0)]) s tr /\
  key_state tr 0 = Some true /\ dev_at (a_midi s) 1 d /\ d_midi d = 1.
Proof. exact panic_example. Qed.

(** ** C36: static mode *)
(** A note, a bend, a program or a sound setting on MIDI channel [c] writes only the
    registers of the voice of channel [c] ([own_sound]).  Every history without
    re-assignment.  Missing: the other controllers. *)
Theorem C36_registers_partial : forall r hw mem ops m s0 tr0 s o c,
  history r hw mem ops s0 tr0 -> history r hw mem (ops ++ [AMsg m]) s (tr0 ++ o) ->
  without remaps ops -> note_or_setting c m -> forall e, In e o -> own_sound c e.
Proof. exact static_sound. Qed.
Print Assumptions C36_registers_partial.
Example C36_registers_nonvacuous : without remaps duet /\ note_or_setting 1 (MCc 1 7 20) /\ exists s0 tr0 s o d,
  history (shipped false) no_cartridge blank_memory duet s0 tr0 /\
  history (shipped false) no_cartridge blank_memory (duet ++ [AMsg (MCc 1 7 20)]) s (tr0 ++ o) /\
  dev_at (a_midi s0) 0 d /\ ~ open_to (a_midi s0) (MCc 1 7 20) 1 0 d /\ d_on d = true /\ exists e, In e o /\ of_fm 1 e.
Proof. exact chip_example. Qed.

(** ** C38: other players' channels *)
(** A message on MIDI channel [a] writes no register of an FM channel that neither serves
    [a] nor can be allocated to it.  Missing: FM parameter controllers on a channel
    with PSG or special mode voices, and FM channel 3 when [a] has special mode voices;
    both break it (below). *)
Theorem C38_fm_registers_partial : forall r hw mem ops m s0 tr0 s o a n d,
  history r hw mem ops s0 tr0 -> history r hw mem (ops ++ [AMsg m]) s (tr0 ++ o) -> on_channel m = Some a -> ~ reassigning m ->
  0 <= n < 6 -> dev_at (a_midi s0) n d -> ~ open_to (a_midi s0) m a n d ->
  ((exists k v, m = MCc a k v /\ is_fm_controller k) -> forall j e, serves (a_midi s0) a j e -> j < 6) ->
  (n = 2 -> forall j e, serves (a_midi s0) a j e -> j < 10) ->
  forall e, In e o -> ~ of_fm n e.
Proof. exact others_fm. Qed.
Print Assumptions C38_fm_registers_partial.
(** Likewise for the PSG channels, with no such exceptions. *)
Theorem C38_psg_registers_partial : forall r hw mem ops m s0 tr0 s o a n d,
  history r hw mem ops s0 tr0 -> history r hw mem (ops ++ [AMsg m]) s (tr0 ++ o) -> on_channel m = Some a -> ~ reassigning m ->
  0 <= n < 4 -> dev_at (a_midi s0) (6 + n) d -> ~ open_to (a_midi s0) m a (6 + n) d ->
  forall e, In e o -> ~ of_psg n e.
Proof. exact others_psg. Qed.
Print Assumptions C38_psg_registers_partial.
(** The algorithm controller on MIDI channel 7, a PSG tone, rewrites FM channel 1 while it
    sounds for MIDI channel 1. *)
Theorem C38_controller_refuted : exists s0 tr0 s o d e,
  history (shipped false) no_cartridge blank_memory [AMsg (MNoteOn 0 60 100)] s0 tr0 /\
  history (shipped false) no_cartridge blank_memory ([AMsg (MNoteOn 0 60 100)] ++ [AMsg (MCc 6 14 3)]) s (tr0 ++ o) /\
  dev_at (a_midi s0) 0 d /\ d_midi d = 0 /\ d_on d = true /\ In e o /\ of_fm 0 e.
Proof. exact chip_alg_example. Qed.
Print Assumptions C38_controller_refuted.
(** A note on MIDI channel 12, the second special mode voice, changes the level of an
    operator of FM channel 3 while that sounds a note of MIDI channel 3. *)
Theorem C38_special_refuted : exists s0 tr0 s o d e,
  history (shipped false) no_cartridge blank_memory organ s0 tr0 /\
  history (shipped false) no_cartridge blank_memory (organ ++ [AMsg (MNoteOn 11 60 30)]) s (tr0 ++ o) /\
  dev_at (a_midi s0) 2 d /\ d_midi d = 2 /\ d_on d = true /\ In e o /\ of_fm 2 e.
Proof. exact chip_special_example. Qed.
Print Assumptions C38_special_refuted.

(** ** C42: no hung notes at the chip *)
(** An FM channel that is keyed on plays a key that is held down. *)
Theorem C42_chip_partial : forall r hw mem ops s tr n,
  history r hw mem ops s tr -> 0 <= n < 6 ->
  without raw_write ops -> without (is_cc 78) ops -> without (is_cc 65) ops -> without remapping ops ->
  key_state tr n = Some true -> exists d, dev_at (a_midi s) n d /\ d_on d = true /\ In (d_midi d, note_of d) (held (map message ops)).
Proof. exact held_at_chip. Qed.
Print Assumptions C42_chip_partial.
Example C42_chip_nonvacuous :
  without raw_write solo /\ without (is_cc 78) solo /\ without (is_cc 65) solo /\ without remapping solo /\
  held (map message solo) = [(0, 60)] /\
  exists s tr, history (shipped false) no_cartridge blank_memory solo s tr /\
    key_state tr 0 = Some true /\ key_state tr 1 = Some false.
Proof. exact held_example. Qed.
