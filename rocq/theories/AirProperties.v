(** C108: notes played over the network, from the packets to the chips.
    [played r hw mem evs ops a out] (AirSpec): after power-on the packets and frames [evs]
    ask for the messages and frames [ops]; [a] is the state of the interface and [out]
    everything written so far.

    Partial: the packets are among those of C103; the conditions of C31, C71, C84 and
    C85. *)
From Verif Require Import Base PitchSpec PsgModel PsgSpec SynthModel SynthSpec MidiModel MidiSpec RomData.
From Verif Require Import DevModel DevSpec AppModel AppSpec AppExampleProofs SoundSpec SongSpec SongExampleProofs MachineSpec NetModel WifiModel WifiSpec WifiExampleProofs AirSpec AirProofs AirExampleProofs.

(** The interface never stops at a fault, unless the sample channel is switched on (C48)
    or half a byte of an envelope uploaded (C27). *)
Theorem C108_runs_on_partial : forall r hw mem evs ops, rom_ok r -> mem_ok mem -> Forall wev_ok evs -> asks false evs ops -> Forall calm (msgs ops) ->
  exists a out, played r hw mem evs ops a out.
Proof. exact air_runs_on. Qed.
Print Assumptions C108_runs_on_partial.
Example C108_runs_on_nonvacuous : Forall wev_ok off_events /\ asks false off_events wave_off /\ Forall calm (msgs wave_off).
Proof. exact (conj off_events_ok (conj off_asks (proj1 air_calm_example))). Qed.

(** ** FM notes *)
(** When every key pressed has been released, no FM channel is keyed on. *)
Theorem C108_silent_partial : forall r hw mem evs ops a out n, played r hw mem evs ops a out -> 0 <= n < 6 ->
  without raw_write ops -> without (is_cc 78) ops -> without (is_cc 65) ops -> without remapping ops ->
  MidiSpec.held (msgs ops) = [] -> key_state out n = Some false.
Proof. exact air_silent. Qed.
Print Assumptions C108_silent_partial.

(** A keyed-on FM channel plays a key that is down. *)
Theorem C108_held_partial : forall r hw mem evs ops a out n, played r hw mem evs ops a out -> 0 <= n < 6 ->
  without raw_write ops -> without (is_cc 78) ops -> without (is_cc 65) ops -> without remapping ops ->
  key_state out n = Some true -> exists d, dev_at (a_midi a) n d /\ d_on d = true /\ In (d_midi d, note_of d) (MidiSpec.held (msgs ops)).
Proof. exact air_held. Qed.
Print Assumptions C108_held_partial.

(** A Note On keys its channel on, at the bent pitch; *)
Theorem C108_heard_partial : forall r hw mem evs before c p v tail a out, played r hw mem evs (before ++ AMsg (MNoteOn c p v) :: tail) a out -> msgs tail = [] -> 0 <= c < 6 -> 1 <= v ->
  without raw_write before -> without (is_cc 78) before -> without (is_cc 65) before -> without remaps before ->
  (length (filter (fun k => Z.eqb (fst k) c) (MidiSpec.held (msgs before))) < 10)%nat ->
  let x := pitched (msgs before) c p in
  0 <= bent (msgs before) c p -> 0 <= x -> 11 <= x / 100 <= 106 ->
  key_state out c = Some true /\ chip_freq out c = Some (fm_note r (x / 100) (x mod 100)).
Proof. exact air_heard. Qed.
Print Assumptions C108_heard_partial.

(** it plays the selected instrument, at the level and on the side set. *)
Theorem C108_voice_partial : forall r hw mem evs before c p v tail a out, played r hw mem evs (before ++ AMsg (MNoteOn c p v) :: tail) a out -> msgs tail = [] -> 0 <= c < 6 -> 1 <= v ->
  without raw_write before -> without (is_cc 78) before -> without (is_cc 65) before -> without remaps before ->
  without remapping before -> without (is_cc 77) before -> without edits_fm before -> without stores before ->
  drums_in_order (msgs before) -> c <> 2 \/ without sm_note before ->
  (length (filter (fun k => Z.eqb (fst k) c) (MidiSpec.held (msgs before))) < 10)%nat ->
  let x := pitched (msgs before) c p in
  let st := settings (msgs before) c in
  let instrument := nth (Z.to_nat (st_prog st)) (rom_presets r) no_preset in
  0 <= bent (msgs before) c p -> 0 <= x -> 11 <= x / 100 <= 106 ->
  plays_preset (ym_regs out) c instrument /\ plays_level (ym_regs out) c instrument (loudness (st_vol st) v) /\ chip_st (ym_regs out) c = Some (pan_side (st_pan st)).
Proof. exact air_voice. Qed.
Print Assumptions C108_voice_partial.

(** The hypotheses hold of the second of two notes in one packet. *)
Example C108_nonvacuous : without raw_write first_two /\ without (is_cc 78) first_two /\ without (is_cc 65) first_two /\
  without remaps first_two /\ without remapping first_two /\ without (is_cc 77) first_two /\ without edits_fm first_two /\
  without stores first_two /\ drums_in_order (msgs first_two) /\ (length (filter (fun k => Z.eqb (fst k) 0) (MidiSpec.held (msgs first_two))) < 10)%nat /\
  0 <= bent (msgs first_two) 0 64 /\ pitched (msgs first_two) 0 64 = 6400 /\ st_prog (settings (msgs first_two) 0) = 5 /\
  exists a out, played (shipped false) no_cartridge blank_memory song_events (first_two ++ AMsg (MNoteOn 0 64 100) :: [AFrame]) a out /\ key_state out 0 = Some true.
Proof. exact air_fm_example. Qed.

(** ** PSG notes *)
(** The envelope steps with the frames since the packet with the Note On; a looping one
    repeats as long as the key is down, and after the release is played to its end. *)
Theorem C108_envelope_partial : forall r hw mem evs before c p v n more a out pre body post junk, played r hw mem evs (before ++ AMsg (MNoteOn c p v) :: more) a out ->
  psg_note r hw mem before c p v n -> undisturbed c more -> in_range (before ++ AMsg (MNoteOn c p v) :: more) c p ->
  voice_envelope r before c (loop_env pre body post junk) -> Forall data_byte pre -> Forall data_byte body -> Forall data_byte post -> body <> [] ->
  note_sounds r (before ++ AMsg (MNoteOn c p v) :: more) out n c p v (PsgSpec.held pre body (frames_done more)).
Proof. exact air_envelope. Qed.
Print Assumptions C108_envelope_partial.
Theorem C108_released_partial : forall r hw mem evs before c p v n more off after a out pre body post junk, played r hw mem evs ((before ++ AMsg (MNoteOn c p v) :: more) ++ AMsg off :: after) a out ->
  psg_note r hw mem before c p v n -> undisturbed c more -> in_range (before ++ AMsg (MNoteOn c p v) :: more) c p ->
  lets_go (before ++ AMsg (MNoteOn c p v) :: more) c p n off -> left_alone (before ++ AMsg (MNoteOn c p v) :: more) after c n ->
  voice_envelope r before c (loop_env pre body post junk) -> Forall data_byte pre -> Forall data_byte body -> Forall data_byte post -> body <> [] ->
  note_sounds r (before ++ AMsg (MNoteOn c p v) :: more) out n c p v (PsgSpec.released pre body post (frames_done more) (frames_done after)) /\
  (len body + len post <= frames_done after -> chip_att att_at_boot out n = 15).
Proof. exact air_released. Qed.
Print Assumptions C108_released_partial.

(** The hypotheses hold of a note sent with its envelope, bent by a later packet, and
    released by another. *)
Example C108_envelope_nonvacuous :
  psg_note (shipped false) no_cartridge blank_memory ready 6 69 100 0 /\ undisturbed 6 bends /\ in_range wave_on 6 69 /\
  voice_envelope (shipped false) ready 6 (loop_env [0x01] [0x23; 0x04] [0x05] []) /\ PsgSpec.held [0x01] [0x23; 0x04] (frames_done bends) = Some 0x04 /\
  exists a out, played (shipped false) no_cartridge blank_memory on_events (ready ++ AMsg (MNoteOn 6 69 100) :: bends) a out /\
    chip_att att_at_boot out 0 = psg_level 90 100 4 /\ chip_tone tone_at_boot out 0 = psg_tone false 6925.
Proof. exact air_wave_example. Qed.
Example C108_released_nonvacuous : lets_go wave_on 6 69 0 (MNoteOff 6 69) /\ left_alone wave_on rests 6 0 /\
  PsgSpec.released [0x01] [0x23; 0x04] [0x05] (frames_done bends) (frames_done rests) = Some 0x05 /\
  exists a out, played (shipped false) no_cartridge blank_memory off_events (wave_on ++ AMsg (MNoteOff 6 69) :: rests) a out /\ chip_att att_at_boot out 0 = psg_level 90 100 5.
Proof. exact air_release_example. Qed.
