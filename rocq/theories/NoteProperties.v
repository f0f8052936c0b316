(** C71, C72, C48: what one note, and one pitch bend, do to the chip at the end of an
    arbitrary history of the whole interface.

    The statements read off the chip's registers as a listener would: [key_state] is
    the last key-on/key-off written for an FM channel, [chip_freq] the octave and
    frequency number it plays, [chip_st] its left/right outputs (SynthSpec);
    [pitched] is the pitch in cents the MIDI messages ask for, and [fm_note] the
    octave and frequency number of a key (SoundSpec). *)
From Coq Require Import ZArith List Bool Lia.
From Verif Require Import Base SynthModel SynthSpec PitchSpec MidiModel MidiSpec DevModel DevSpec AppModel AppSpec SoundSpec AppExampleProofs AppNoteProofs SoundExampleProofs
  NoteExampleProofs.
Import ListNotations.
Open Scope Z_scope.

(** ** C71: a note is played as asked *)

(** If a note-on strikes an FM channel at all, the channel ends up keyed on, at the
    key and cents the message, the channel's bend, its bend range and its fine tuning
    add up to, and that key is within the chip's range; on channel 10 the key is that
    of the drum.  Missing: totals below zero - refuted below - and raw register
    writes (SysEx 8 and 9). *)
Theorem C71_pitch_partial : forall r hw mem ops c p v s0 s tr0 o,
  history r hw mem ops s0 tr0 -> history r hw mem (ops ++ [AMsg (MNoteOn c p v)]) s (tr0 ++ o) ->
  forall n, 0 <= n < 6 -> v <> 0 -> key_state o n = Some true -> without raw_write ops ->
  0 <= bent (map message ops) c p -> 0 <= pitched (map message ops) c p ->
  let x := pitched (map message ops) c p in
  11 <= x / 100 <= 106 /\ key_state (tr0 ++ o) n = Some true /\
  chip_freq (tr0 ++ o) n = Some (fm_note r (if c =? 9 then snd (drum r (x / 100)) else x / 100) (x mod 100)).
Proof. exact note_pitch. Qed.
Print Assumptions C71_pitch_partial.

(** ... the channel's note is the one of the message ... *)
Theorem C71_voice : forall r hw mem ops c p v s0 s tr0 o,
  history r hw mem ops s0 tr0 -> history r hw mem (ops ++ [AMsg (MNoteOn c p v)]) s (tr0 ++ o) ->
  forall n, 0 <= n < 6 -> v <> 0 -> key_state o n = Some true ->
  exists d, dev_at (a_midi s) n d /\ d_on d = true /\ d_midi d = c /\ d_pitch d = p /\ f_vel (fm_of (a_dev s) n) = v.
Proof. exact note_sounding. Qed.
Print Assumptions C71_voice.

(** ... it is heard on the side the channel's pan asks for ... *)
Theorem C71_side_partial : forall r hw mem ops c p v s0 s tr0 o,
  history r hw mem ops s0 tr0 -> history r hw mem (ops ++ [AMsg (MNoteOn c p v)]) s (tr0 ++ o) ->
  forall n, 0 <= n < 6 -> v <> 0 -> key_state o n = Some true -> without raw_write ops ->
  without remapping ops -> without (is_cc 78) ops -> without (is_cc 77) ops ->
  chip_st (ym_regs (tr0 ++ o)) n = Some (pan_side (st_pan (settings (map message ops) c))).
Proof. exact note_side. Qed.
Print Assumptions C71_side_partial.

(** ... with the instrument the channel selected last ... *)
Theorem C71_instrument_partial : forall r hw mem ops c p v s0 s tr0 o,
  history r hw mem ops s0 tr0 -> history r hw mem (ops ++ [AMsg (MNoteOn c p v)]) s (tr0 ++ o) ->
  forall n, 0 <= n < 6 -> v <> 0 -> key_state o n = Some true -> without raw_write ops ->
  without remapping ops -> without (is_cc 78) ops -> without edits_fm ops -> without stores ops ->
  drums_in_order (map message ops) -> c <> 9 ->
  plays_preset (ym_regs (tr0 ++ o)) n (nth (Z.to_nat (st_prog (settings (map message ops) c))) (rom_presets r) no_preset).
Proof. exact note_instrument. Qed.
Print Assumptions C71_instrument_partial.

(** ... and at the level of the channel's volume and the message's velocity. *)
Theorem C71_level_partial : forall r hw mem ops c p v s0 s tr0 o,
  history r hw mem ops s0 tr0 -> history r hw mem (ops ++ [AMsg (MNoteOn c p v)]) s (tr0 ++ o) ->
  forall n, 0 <= n < 6 -> v <> 0 -> key_state o n = Some true -> without raw_write ops ->
  without remapping ops -> without (is_cc 78) ops -> without edits_fm ops -> without stores ops ->
  drums_in_order (map message ops) -> c <> 9 -> n <> 2 \/ without sm_note ops /\ (c < 10 \/ 12 < c) ->
  plays_level (ym_regs (tr0 ++ o)) n (nth (Z.to_nat (st_prog (settings (map message ops) c))) (rom_presets r) no_preset)
    (loudness (st_vol (settings (map message ops) c)) v).
Proof. exact note_level. Qed.
Print Assumptions C71_level_partial.

(** On channel 10 the instrument is that of the drum, whatever came before ... *)
Theorem C71_drum_instrument_partial : forall r hw mem ops c p v s0 s tr0 o,
  history r hw mem ops s0 tr0 -> history r hw mem (ops ++ [AMsg (MNoteOn c p v)]) s (tr0 ++ o) ->
  forall n, 0 <= n < 6 -> v <> 0 -> key_state o n = Some true -> without raw_write ops -> c = 9 ->
  0 <= bent (map message ops) c p -> 0 <= pitched (map message ops) c p ->
  plays_preset (ym_regs (tr0 ++ o)) n (fst (drum r (pitched (map message ops) c p / 100))).
Proof. exact drum_instrument. Qed.
Print Assumptions C71_drum_instrument_partial.

(** ... and so is its level. *)
Theorem C71_drum_level_partial : forall r hw mem ops c p v s0 s tr0 o,
  history r hw mem ops s0 tr0 -> history r hw mem (ops ++ [AMsg (MNoteOn c p v)]) s (tr0 ++ o) ->
  forall n, 0 <= n < 6 -> v <> 0 -> key_state o n = Some true -> without raw_write ops ->
  without remapping ops -> without (is_cc 78) ops -> without edits_fm ops -> without stores ops -> c = 9 ->
  0 <= bent (map message ops) c p -> 0 <= pitched (map message ops) c p -> n <> 2 \/ without sm_note ops ->
  plays_level (ym_regs (tr0 ++ o)) n (fst (drum r (pitched (map message ops) c p / 100))) (loudness (st_vol (settings (map message ops) c)) v).
Proof. exact drum_level. Qed.
Print Assumptions C71_drum_level_partial.

(** In the default mode a note of the first six channels within the chip's range is
    played, on the FM channel of its own number, whatever else is going on, provided
    the channel does not glide and does not already hold ten keys. *)
Theorem C71_heard_partial : forall r hw mem ops c p v s0 tr0,
  history r hw mem ops s0 tr0 -> 0 <= c < 6 -> MidiSpec.seven p -> 1 <= v <= 127 ->
  without remaps ops -> without (is_cc 78) ops -> tn_glide (tuned (map message ops)) c = false ->
  (length (filter (fun k => Z.eqb (fst k) c) (held (map message ops))) < 10)%nat ->
  0 <= bent (map message ops) c p -> 0 <= pitched (map message ops) c p -> 11 <= pitched (map message ops) c p / 100 <= 106 ->
  exists s o, history r hw mem (ops ++ [AMsg (MNoteOn c p v)]) s (tr0 ++ o) /\ key_state o c = Some true.
Proof. exact note_heard. Qed.
Print Assumptions C71_heard_partial.

Example C71_nonvacuous :
  without raw_write tuned_song /\ without remapping tuned_song /\ without remaps tuned_song /\ without (is_cc 78) tuned_song /\ without (is_cc 77) tuned_song /\
  without edits_fm tuned_song /\ without stores tuned_song /\ without sm_note tuned_song /\ drums_in_order (map message tuned_song) /\
  tn_glide (tuned (map message tuned_song)) 2 = false /\ held (map message tuned_song) = [(0, 50)] /\
  bent (map message tuned_song) 2 60 = 6100 /\ pitched (map message tuned_song) 2 60 = 6126 /\
  exists s0 tr0 s o, history (shipped false) no_cartridge blank_memory tuned_song s0 tr0 /\
    history (shipped false) no_cartridge blank_memory (tuned_song ++ [AMsg (MNoteOn 2 60 100)]) s (tr0 ++ o) /\
    key_state o 2 = Some true /\ chip_freq (tr0 ++ o) 2 = Some (4, 691) /\ chip_st (ym_regs (tr0 ++ o)) 2 = Some 2.
Proof. exact c71_example. Qed.
Example C71_drum_nonvacuous :
  without raw_write [gm] /\ bent (map message [gm]) 9 40 = 4000 /\ pitched (map message [gm]) 9 40 = 4000 /\
  snd (drum (shipped false) 40) = 39 /\
  exists s0 tr0 s o, history (shipped false) no_cartridge blank_memory [gm] s0 tr0 /\
    history (shipped false) no_cartridge blank_memory ([gm] ++ [AMsg (MNoteOn 9 40 100)]) s (tr0 ++ o) /\
    key_state o 0 = Some true /\ chip_freq (tr0 ++ o) 0 = Some (2, 765).
Proof. exact c71_drum_example. Qed.

(** A bend that takes a note 115 semitones below the lowest MIDI key is not ignored as
    an unplayable note is: the sum wraps around and an audible key is struck. *)
Theorem C71_underflow_refuted :
  without raw_write far_bend /\ without remaps far_bend /\ without (is_cc 78) far_bend /\ bent (map message far_bend) 0 5 = - 11500 /\
  exists s0 tr0 s o, history (shipped false) no_cartridge blank_memory far_bend s0 tr0 /\
    history (shipped false) no_cartridge blank_memory (far_bend ++ [AMsg (MNoteOn 0 5 100)]) s (tr0 ++ o) /\
    key_state o 0 = Some true /\ chip_freq (tr0 ++ o) 0 = Some (1, 827).
Proof. exact c71_underflow. Qed.
Print Assumptions C71_underflow_refuted.

(** ** C72: a pitch bend moves the channel's sounding notes, and nothing else *)

(** The FM channel keeps its key and plays the pitch of its note bent as the message
    asks.  Missing: totals outside the 256 keys of the arithmetic, raw register
    writes, the DAC switch and re-assignment; and a bend to where the wheel already is,
    which the interface ignores. *)
Theorem C72_bend_partial : forall r hw mem ops c b s0 tr0 s o n d,
  history r hw mem ops s0 tr0 -> history r hw mem (ops ++ [AMsg (MBend c b)]) s (tr0 ++ o) ->
  0 <= n < 6 -> dev_at (a_midi s0) n d -> d_on d = true -> d_midi d = c ->
  without raw_write ops -> without remapping ops -> without (is_cc 78) ops -> b <> st_bend (settings (map message ops) c) ->
  let t := settings (map message ops) c in
  let y := 100 * d_pitch d + d_cents d + bend_cents b (100 * st_semis t + st_cents t) in
  let x := y + tn_fine (tuned (map message ops)) c in
  0 <= y < 25600 -> 0 <= x < 25600 ->
  key_state (tr0 ++ o) n = key_state tr0 n /\ chip_freq (tr0 ++ o) n = Some (fm_note r (x / 100) (x mod 100)).
Proof. exact bend_heard. Qed.
Print Assumptions C72_bend_partial.

(** Every FM channel that is silent or belongs to another MIDI channel keeps its key
    and its pitch. *)
Theorem C72_others_partial : forall r hw mem ops c b s0 tr0 s o n d,
  history r hw mem ops s0 tr0 -> history r hw mem (ops ++ [AMsg (MBend c b)]) s (tr0 ++ o) ->
  0 <= n < 6 -> dev_at (a_midi s0) n d -> d_on d = false \/ d_midi d <> c -> without raw_write ops ->
  key_state (tr0 ++ o) n = key_state tr0 n /\ chip_freq (tr0 ++ o) n = chip_freq tr0 n.
Proof. exact bend_others. Qed.
Print Assumptions C72_others_partial.
Example C72_nonvacuous :
  without raw_write tuned_song /\ without remapping tuned_song /\ without (is_cc 78) tuned_song /\
  exists s0 tr0 s o d, history (shipped false) no_cartridge blank_memory tuned_song s0 tr0 /\
    history (shipped false) no_cartridge blank_memory (tuned_song ++ [AMsg (MBend 0 12288)]) s (tr0 ++ o) /\
    dev_at (a_midi s0) 0 d /\ d_on d = true /\ d_midi d = 0 /\ d_pitch d = 50 /\ key_state tr0 0 = Some true /\
    chip_freq tr0 0 = Some (3, 722) /\ chip_freq (tr0 ++ o) 0 = Some (3, 765).
Proof. exact c72_example. Qed.

(** A drum is tuned to its own key, not to the key that was struck.  A bend by less
    than one cent should leave it there; it moves it to the key that was struck. *)
Theorem C72_drum_refuted :
  without raw_write struck /\ without remapping struck /\ without (is_cc 78) struck /\ drums_in_order (map message struck) /\
  bent (map message (struck ++ [AMsg (MBend 9 8200)])) 9 40 = 4000 /\
  fm_note (shipped false) (snd (drum (shipped false) 40)) 0 = (2, 765) /\
  exists s0 tr0 s o d, history (shipped false) no_cartridge blank_memory struck s0 tr0 /\
    history (shipped false) no_cartridge blank_memory (struck ++ [AMsg (MBend 9 8200)]) s (tr0 ++ o) /\
    dev_at (a_midi s0) 0 d /\ d_on d = true /\ d_midi d = 9 /\ d_pitch d = 40 /\
    chip_freq tr0 0 = Some (2, 765) /\ chip_freq (tr0 ++ o) 0 = Some (2, 810).
Proof. exact c72_drum. Qed.
Print Assumptions C72_drum_refuted.

(** ** C48 *)

(** No history fails that leaves the DAC off and uploads no envelope of odd length. *)
Theorem C48_dacless_partial : forall r hw mem ops, rom_ok r -> mem_ok mem -> Forall aop_ok ops ->
  without (is_cc 78) ops -> without MidiSpec.odd_envelope ops -> exists s tr, history r hw mem ops s tr.
Proof. exact history_dacless. Qed.
Print Assumptions C48_dacless_partial.
Example C48_dacless_nonvacuous : without (is_cc 78) tuned_song /\ without MidiSpec.odd_envelope tuned_song /\ mem_ok blank_memory /\ Forall aop_ok tuned_song.
Proof. exact c48_dacless_example. Qed.
