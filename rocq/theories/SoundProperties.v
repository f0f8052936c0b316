(** C31 for the whole interface: what the FM channels sound, related to the notes
    the MIDI layer believes are on.  [history r hw mem ops s tr] is explained in
    AppSpec; [key_state tr n] is the last key-on/key-off the YM2612 received for
    its channel [n], and device channels 0 to 5 are those FM channels. *)
From Verif Require Import Base SynthModel SynthSpec MidiModel DevModel DevSpec AppModel AppSpec AppExampleProofs.
From Verif Require Import SoundSpec AppKeyProofs AppToneProofs SoundExampleProofs.
From Verif Require MidiSpec.
Import MidiSpec(is_cc, remapping, own_sysex, gm_reset_msg, dev_at, held, settings, st_vol, st_pan, st_prog).

(** ** C31 *)
(** A channel keyed on in the chip has its note on.  Missing: histories with raw
    register writes, Reset All Controllers, the DAC switch, or both re-assignment
    and a General MIDI reset; the refutations below show that each breaks it. *)
Theorem C31_keys_partial : forall r hw mem ops s tr n,
  history r hw mem ops s tr -> 0 <= n < 6 ->
  without raw_write ops -> without (is_cc 121) ops -> without (is_cc 78) ops ->
  without remapping ops \/ without gm_reset_msg ops ->
  exists b d, key_state tr n = Some b /\ dev_at (a_midi s) n d /\ (b = true -> d_on d = true).
Proof. exact c31_keys. Qed.
Print Assumptions C31_keys_partial.
Example C31_nonvacuous :
  without raw_write two_songs /\ without (is_cc 78) two_songs /\ without remapping two_songs /\
  exists s tr d, history (shipped false) no_cartridge blank_memory two_songs s tr /\
    key_state tr 1 = Some true /\ key_state tr 0 = Some false /\ dev_at (a_midi s) 1 d /\ d_on d = true.
Proof. exact c31_example. Qed.

(** Once every pressed key has been released, every FM channel is keyed off. *)
Theorem C31_silent_partial : forall r hw mem ops s tr n,
  history r hw mem ops s tr -> 0 <= n < 6 ->
  without raw_write ops -> without (is_cc 78) ops -> without (is_cc 65) ops -> without remapping ops ->
  held (map message ops) = [] -> key_state tr n = Some false.
Proof. exact c31_silent. Qed.
Print Assumptions C31_silent_partial.
Example C31_silent_nonvacuous :
  without raw_write ended /\ without (is_cc 78) ended /\ without (is_cc 65) ended /\ without remapping ended /\
  held (map message ended) = [] /\ exists s tr, history (shipped false) no_cartridge blank_memory ended s tr.
Proof. exact c31_silent_example. Qed.

(** Reset All Controllers leaves a sounding note keyed on with no note to release. *)
Theorem C31_reset_controllers_refuted :
  without raw_write reset_controllers_hang /\ without (is_cc 78) reset_controllers_hang /\
  without gm_reset_msg reset_controllers_hang /\
  exists s tr d, history (shipped false) no_cartridge blank_memory reset_controllers_hang s tr /\
    key_state tr 0 = Some true /\ dev_at (a_midi s) 0 d /\ d_on d = false.
Proof. exact c31_reset_controllers. Qed.
Print Assumptions C31_reset_controllers_refuted.
(** Enabling the DAC while FM channel 6 plays. *)
Theorem C31_dac_refuted : without raw_write dac_hang /\ without remapping dac_hang /\
  exists s tr d, history (shipped false) no_cartridge blank_memory dac_hang s tr /\
    key_state tr 5 = Some true /\ dev_at (a_midi s) 5 d /\ d_on d = false.
Proof. exact c31_dac. Qed.
Print Assumptions C31_dac_refuted.
(** Taking a sounding device channel off its MIDI channel, then a General MIDI reset. *)
Theorem C31_remap_refuted : without raw_write remap_hang /\ without (is_cc 121) remap_hang /\ without (is_cc 78) remap_hang /\
  exists s tr d, history (shipped false) no_cartridge blank_memory remap_hang s tr /\
    key_state tr 0 = Some true /\ dev_at (a_midi s) 0 d /\ d_on d = false.
Proof. exact c31_remap. Qed.
Print Assumptions C31_remap_refuted.

(** ** C39 and C62 at the chip *)
(** Every sounding FM channel is panned as its MIDI channel last was.  Missing:
    histories with raw register writes, controller 77 (which sets the side of an FM
    channel by itself), the DAC switch and re-assignment of device channels. *)
Theorem C39_side_sounds_partial : forall r hw mem ops s tr, history r hw mem ops s tr ->
  forall n, 0 <= n < 6 -> forall d, dev_at (a_midi s) n d -> d_on d = true ->
  without remapping ops -> without (is_cc 78) ops -> without raw_write ops -> without (is_cc 77) ops ->
  chip_st (ym_regs tr) n = Some (pan_side (st_pan (settings (map message ops) (d_midi d)))).
Proof. exact side_settings. Qed.
Print Assumptions C39_side_sounds_partial.

(** Every sounding FM channel of a melodic MIDI channel is set to the instrument the
    channel last selected - in particular not to a percussion instrument.  Missing:
    as above, but with any controller that edits instruments, stored instruments, and
    percussion outside General MIDI mode or before a second General MIDI reset; the
    refutations below show what then goes wrong. *)
Theorem C62_melodic_instrument_partial : forall r hw mem ops s tr, history r hw mem ops s tr ->
  forall n, 0 <= n < 6 -> forall d, dev_at (a_midi s) n d -> d_on d = true ->
  without remapping ops -> without (is_cc 78) ops -> without raw_write ops -> without edits_fm ops -> without stores ops ->
  drums_in_order (map message ops) -> d_midi d <> 9 ->
  plays_preset (ym_regs tr) n (nth (Z.to_nat (st_prog (settings (map message ops) (d_midi d)))) (rom_presets r) no_preset).
Proof. exact instrument_settings. Qed.
Print Assumptions C62_melodic_instrument_partial.

(** ... and its levels are those of that instrument at the channel's volume and the
    note's velocity; channel 3 only while no operator of special mode was played. *)
Theorem C39_level_sounds_partial : forall r hw mem ops s tr, history r hw mem ops s tr ->
  forall n, 0 <= n < 6 -> forall d, dev_at (a_midi s) n d -> d_on d = true ->
  without remapping ops -> without (is_cc 78) ops -> without raw_write ops -> without edits_fm ops -> without stores ops ->
  drums_in_order (map message ops) -> d_midi d <> 9 -> n <> 2 \/ without sm_note ops ->
  plays_level (ym_regs tr) n (nth (Z.to_nat (st_prog (settings (map message ops) (d_midi d)))) (rom_presets r) no_preset)
    (loudness (st_vol (settings (map message ops) (d_midi d))) (f_vel (fm_of (a_dev s) n))).
Proof. exact level_settings. Qed.
Print Assumptions C39_level_sounds_partial.

(** ** C10 *)
(** The levels just named obey the loudness law in volume and velocity, and the chip
    gets them operator by operator.  Missing: histories in which the chip keeps levels
    of another algorithm (C14), and those excluded below. *)
Theorem C10_playing_law : playing_law played_level.
Proof. exact playing_ok. Qed.
Print Assumptions C10_playing_law.
Theorem C10_sounds_partial : forall r hw mem ops s tr, history r hw mem ops s tr ->
  forall n, 0 <= n < 6 -> forall d, dev_at (a_midi s) n d -> d_on d = true ->
  without remapping ops -> without (is_cc 78) ops -> without raw_write ops -> without edits_fm ops -> without stores ops ->
  drums_in_order (map message ops) -> d_midi d <> 9 -> n <> 2 \/ without sm_note ops ->
  let t := settings (map message ops) (d_midi d) in
  let p := nth (Z.to_nat (st_prog t)) (rom_presets r) no_preset in
  forall o, 0 <= o < 4 -> exists x, zget (p_ops p) o = Some x /\
    chip_tl (ym_regs tr) n o = Some (played_level (p_alg p) (st_vol t) (f_vel (fm_of (a_dev s) n)) o (o_tl x)).
Proof. exact level_settings. Qed.
Print Assumptions C10_sounds_partial.
Example C39_C62_sound_nonvacuous :
  without raw_write gm_song /\ without remapping gm_song /\ without (is_cc 78) gm_song /\ without (is_cc 77) gm_song /\
  without edits_fm gm_song /\ without stores gm_song /\ without sm_note gm_song /\ drums_in_order (map message gm_song) /\
  exists s tr d0 d1, history (shipped false) no_cartridge blank_memory gm_song s tr /\
    dev_at (a_midi s) 0 d0 /\ d_on d0 = true /\ d_midi d0 = 1 /\ dev_at (a_midi s) 1 d1 /\ d_on d1 = true /\ d_midi d1 = 0 /\
    chip_st (ym_regs tr) 0 = Some 2 /\ chip_st (ym_regs tr) 1 = Some 1 /\
    p_alg (program_preset gm_song 1) = 4 /\ p_alg (program_preset gm_song 0) = 0.
Proof. exact song_example. Qed.

(** Percussion on the noise channel, in the default static mode, marks FM channel 4
    as percussion: the next note it starts by itself is a drum. *)
Theorem C62_noise_refuted :
  without raw_write noise_drum /\ without (is_cc 78) noise_drum /\ without remapping noise_drum /\ without gm_reset_msg noise_drum /\
  without edits_fm noise_drum /\ without stores noise_drum /\ wrong_instrument noise_drum 3 3.
Proof. exact c62_noise. Qed.
Print Assumptions C62_noise_refuted.
(** After a second General MIDI reset a melodic note is played with the drum the
    device channel played last. *)
Theorem C62_second_reset_refuted :
  without raw_write stale_drum /\ without (is_cc 78) stale_drum /\ without remapping stale_drum /\
  without edits_fm stale_drum /\ without stores stale_drum /\ wrong_instrument stale_drum 0 0.
Proof. exact c62_stale. Qed.
Print Assumptions C62_second_reset_refuted.
(** ... and the same after re-assigning the device channel. *)
Theorem C62_remap_refuted :
  without raw_write moved_drum /\ without (is_cc 78) moved_drum /\ without gm_reset_msg moved_drum /\
  without edits_fm moved_drum /\ without stores moved_drum /\ wrong_instrument moved_drum 0 0.
Proof. exact c62_moved. Qed.
Print Assumptions C62_remap_refuted.
