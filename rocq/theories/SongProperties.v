(** C84, C85 and part of C33: notes of the PSG, from the MIDI message to the chip.
    [history r hw mem ops s tr] is explained in AppSpec, [psg_note], [undisturbed],
    [voice_envelope] and [note_sounds] in SongSpec.

    Partial: nothing is said of notes played after device channels were re-assigned
    (CC 84, CC 121, SysEx 0 and 3) or the interface was reset, of notes started with
    portamento on, of notes below 45 (C66) or bent below note 0 (C71), and of notes
    that are re-tuned (CC 85) while they sound. *)
From Verif Require Import Base PitchSpec PsgModel PsgSpec SynthModel SynthSpec MidiModel MidiSpec RomData DevModel DevSpec AppModel AppSpec AppExampleProofs SoundSpec.
From Verif Require Import SongSpec SongPlayProofs SongReleaseProofs SongStopProofs SongExampleProofs.
Local Notation held := PsgSpec.held.

(** ** C84: a PSG note follows the envelope of its program, or the uploaded one *)
(** An envelope without a loop is played once. *)
Theorem C84_once_partial : forall r hw mem before c p v n more s tr pre junk, psg_note r hw mem before c p v n ->
  history r hw mem (before ++ AMsg (MNoteOn c p v) :: more) s tr -> undisturbed c more ->
  in_range (before ++ AMsg (MNoteOn c p v) :: more) c p ->
  voice_envelope r before c (pre ++ 255 :: junk) -> Forall data_byte pre ->
  note_sounds r (before ++ AMsg (MNoteOn c p v) :: more) tr n c p v (once pre (frames more)).
Proof. exact note_once. Qed.
Print Assumptions C84_once_partial.

(** An envelope with a loop is repeated as long as the key is down. *)
Theorem C84_held_partial : forall r hw mem before c p v n more s tr pre body post junk, psg_note r hw mem before c p v n ->
  history r hw mem (before ++ AMsg (MNoteOn c p v) :: more) s tr -> undisturbed c more ->
  in_range (before ++ AMsg (MNoteOn c p v) :: more) c p ->
  voice_envelope r before c (loop_env pre body post junk) ->
  Forall data_byte pre -> Forall data_byte body -> Forall data_byte post -> body <> [] ->
  note_sounds r (before ++ AMsg (MNoteOn c p v) :: more) tr n c p v (held pre body (frames more)).
Proof. exact note_held. Qed.
Print Assumptions C84_held_partial.

(** The hypotheses hold of a note with an uploaded envelope that is bent while it sounds. *)
Example C84_nonvacuous :
  psg_note (shipped false) no_cartridge blank_memory ready 6 69 100 0 /\ undisturbed 6 bends /\ in_range wave_on 6 69 /\
  voice_envelope (shipped false) ready 6 (loop_env [0x01] [0x23; 0x04] [0x05] []) /\
  st_vol (settings (map message wave_on) 6) = 90 /\ pitched (map message wave_on) 6 69 = 6925 /\ held [0x01] [0x23; 0x04] (frames bends) = Some 0x04 /\
  exists s tr, history (shipped false) no_cartridge blank_memory wave_on s tr /\
    chip_att att_at_boot tr 0 = psg_level 90 100 4 /\ chip_tone tone_at_boot tr 0 = psg_tone false 6925.
Proof. exact wave_example. Qed.
(** And of a note that was allocated dynamically. *)
Example C84_dynamic_nonvacuous : psg_note (shipped false) no_cartridge blank_memory full_fm 0 72 100 0.
Proof. exact full_example. Qed.
(** And of an envelope of the shipped firmware. *)
Example C84_rom_nonvacuous : voice_envelope (shipped false) [AMsg (MProgram 7 5)] 7 (firstn 23 ENVELOPE_0 ++ 254 :: [1; 1; 0x11; 0x11; 1; 1; 0x81; 0x81] ++ 253 :: [1;2;3;4;5;6;7;8;9;10;11;12;13;14;15] ++ [255]).
Proof. exact rom_example. Qed.

(** ** C85: a released PSG note plays the rest of its envelope, then falls silent *)
Theorem C85_released_partial : forall r hw mem before c p v n more off after s tr pre body post junk, psg_note r hw mem before c p v n ->
  history r hw mem ((before ++ AMsg (MNoteOn c p v) :: more) ++ AMsg off :: after) s tr -> undisturbed c more ->
  in_range (before ++ AMsg (MNoteOn c p v) :: more) c p ->
  lets_go (before ++ AMsg (MNoteOn c p v) :: more) c p n off -> left_alone (before ++ AMsg (MNoteOn c p v) :: more) after c n ->
  voice_envelope r before c (loop_env pre body post junk) ->
  Forall data_byte pre -> Forall data_byte body -> Forall data_byte post -> body <> [] ->
  note_sounds r (before ++ AMsg (MNoteOn c p v) :: more) tr n c p v (released pre body post (frames more) (frames after)).
Proof. exact note_released. Qed.
Print Assumptions C85_released_partial.

Theorem C85_silent_partial : forall r hw mem before c p v n more off after s tr pre body post junk, psg_note r hw mem before c p v n ->
  history r hw mem ((before ++ AMsg (MNoteOn c p v) :: more) ++ AMsg off :: after) s tr -> undisturbed c more ->
  in_range (before ++ AMsg (MNoteOn c p v) :: more) c p ->
  lets_go (before ++ AMsg (MNoteOn c p v) :: more) c p n off -> left_alone (before ++ AMsg (MNoteOn c p v) :: more) after c n ->
  voice_envelope r before c (loop_env pre body post junk) ->
  Forall data_byte pre -> Forall data_byte body -> Forall data_byte post -> body <> [] ->
  len body + len post <= frames after -> chip_att att_at_boot tr n = 15.
Proof. exact note_fades. Qed.
Print Assumptions C85_silent_partial.

Example C85_nonvacuous :
  lets_go wave_on 6 69 0 (MNoteOff 6 69) /\ left_alone wave_on rests 6 0 /\ lets_go full_fm 0 72 0 (MCc 0 123 0) /\
  released [0x01] [0x23; 0x04] [0x05] (frames bends) (frames rests) = Some 0x05 /\
  exists s tr, history (shipped false) no_cartridge blank_memory (wave_on ++ AMsg (MNoteOff 6 69) :: rests) s tr /\
    chip_att att_at_boot tr 0 = psg_level 90 100 5.
Proof. exact fades_example. Qed.

(** ** C33: keys stopped by All Notes Off are not forgotten *)
(** A player that stops its notes only by All Notes Off (or, in the same way, All Sound Off)
    mutes the channel for good with the tenth note. *)
Theorem C33_mute_refuted : forall r hw mem c v before more s tr, 0 <= c < 6 ->
  Forall (press_or_stop c) before -> (10 <= key_presses before)%nat -> Forall (press_or_stop c) more ->
  history r hw mem (before ++ AMsg (MCc c 123 v) :: more) s tr -> key_state tr c = Some false.
Proof. exact stopped_dead. Qed.
Print Assumptions C33_mute_refuted.
Example C33_mute_nonvacuous :
  Forall (press_or_stop 0) ten_stops /\ key_presses ten_stops = 10%nat /\
  exists s tr, history (shipped false) no_cartridge blank_memory (ten_stops ++ AMsg (MCc 0 123 0) :: [AMsg (MNoteOn 0 64 100)]) s tr.
Proof. exact ten_example. Qed.

(** With portamento one key is enough: after All Notes Off every further key is taken for
    a slide from the stopped one, which strikes nothing (midi.c:457-460).  The channel
    stays silent however often it is played or stopped. *)
Theorem C33_glide_refuted : forall r hw mem c w v before more s tr, 0 <= c < 6 -> 64 <= w ->
  Forall (press_or_stop c) before -> (1 <= key_presses before)%nat -> Forall (press_or_stop c) more ->
  history r hw mem (AMsg (MCc c 65 w) :: before ++ AMsg (MCc c 123 v) :: more) s tr -> key_state tr c = Some false.
Proof. exact glide_dead. Qed.
Print Assumptions C33_glide_refuted.
Example C33_glide_nonvacuous :
  Forall (press_or_stop 0) slide_stop /\ key_presses slide_stop = 1%nat /\
  exists s tr, history (shipped false) no_cartridge blank_memory (AMsg (MCc 0 65 127) :: slide_stop ++ AMsg (MCc 0 123 0) :: [AMsg (MNoteOn 0 64 100); AFrame; AMsg (MNoteOn 0 67 100)]) s tr.
Proof. exact slide_example. Qed.
