(** C114: notes played over one of several transports, from the bytes to the FM chip.
    [read_up r hw mem n present evs i l s out] (HubNoteSpec): transport [i] of [n] is in
    use, the messages [l] have arrived there and been read, the other transports have
    received anything; [out] is everything written so far.

    Partial: the conditions of C31 and C71; PSG notes, whose envelopes depend on how many
    frames fall between two messages. *)
From Verif Require Import Base PitchSpec SynthModel SynthSpec MidiModel MidiSpec RxModel RxSpec RomData DevModel DevSpec AppModel AppSpec AppExampleProofs SoundSpec.
From Verif Require Import CommModel CommSpec MachineSpec HubModel HubSpec HubExampleProofs HubNoteSpec HubNoteProofs HubNoteExampleProofs.

(** When every key pressed over the transport in use has been released over it, no FM
    channel is keyed on, whatever the others brought. *)
Theorem C114_silent_partial : forall r hw mem n present evs i l s out k, read_up r hw mem n present evs i l s out -> 0 <= k < 6 ->
  without raw_write (told l) -> without (is_cc 78) (told l) -> without (is_cc 65) (told l) -> without remapping (told l) ->
  MidiSpec.held (meanings [] l) = [] -> key_state out k = Some false.
Proof. exact hub_silent. Qed.
Print Assumptions C114_silent_partial.
Example C114_silent_nonvacuous : without raw_write (told tap) /\ without (is_cc 78) (told tap) /\ without (is_cc 65) (told tap) /\ without remapping (told tap) /\ MidiSpec.held (meanings [] tap) = [] /\
  exists s out, read_up (shipped false) no_cartridge blank_memory 5 all_there tapped 1 tap s out /\ arrivals 0 tapped = [0x90].
Proof. exact c114_tapped. Qed.

(** A keyed-on FM channel plays a key that is down on the transport in use. *)
Theorem C114_held_partial : forall r hw mem n present evs i l s out k, read_up r hw mem n present evs i l s out -> 0 <= k < 6 ->
  without raw_write (told l) -> without (is_cc 78) (told l) -> without (is_cc 65) (told l) -> without remapping (told l) ->
  key_state out k = Some true -> exists d, dev_at (a_midi (hb_app s)) k d /\ d_on d = true /\ In (d_midi d, note_of d) (MidiSpec.held (meanings [] l)).
Proof. exact hub_held. Qed.
Print Assumptions C114_held_partial.

(** A Note On there keys its channel on, at the bent pitch; *)
Theorem C114_heard_partial : forall r hw mem n present evs i l c p v s out, read_up r hw mem n present evs i (l ++ [NoteOn c p v]) s out -> 0 <= c < 6 -> 1 <= v ->
  without raw_write (told l) -> without (is_cc 78) (told l) -> without (is_cc 65) (told l) -> without remaps (told l) ->
  (length (filter (fun k => Z.eqb (fst k) c) (MidiSpec.held (meanings [] l))) < 10)%nat ->
  let x := pitched (meanings [] l) c p in
  0 <= bent (meanings [] l) c p -> 0 <= x -> 11 <= x / 100 <= 106 ->
  key_state out c = Some true /\ chip_freq out c = Some (fm_note r (x / 100) (x mod 100)).
Proof. exact hub_heard. Qed.
Print Assumptions C114_heard_partial.

(** it plays the selected instrument, at the level and on the side set. *)
Theorem C114_voice_partial : forall r hw mem n present evs i l c p v s out, read_up r hw mem n present evs i (l ++ [NoteOn c p v]) s out -> 0 <= c < 6 -> 1 <= v ->
  without raw_write (told l) -> without (is_cc 78) (told l) -> without (is_cc 65) (told l) -> without remaps (told l) ->
  without remapping (told l) -> without (is_cc 77) (told l) -> without edits_fm (told l) -> without stores (told l) ->
  drums_in_order (meanings [] l) -> c <> 2 \/ without sm_note (told l) ->
  (length (filter (fun k => Z.eqb (fst k) c) (MidiSpec.held (meanings [] l))) < 10)%nat ->
  let x := pitched (meanings [] l) c p in
  let st := settings (meanings [] l) c in
  let instrument := nth (Z.to_nat (st_prog st)) (rom_presets r) no_preset in
  0 <= bent (meanings [] l) c p -> 0 <= x -> 11 <= x / 100 <= 106 ->
  plays_preset (ym_regs out) c instrument /\ plays_level (ym_regs out) c instrument (loudness (st_vol st) v) /\ chip_st (ym_regs out) c = Some (pan_side (st_pan st)).
Proof. exact hub_voice. Qed.
Print Assumptions C114_voice_partial.
Example C114_nonvacuous : without raw_write (told chosen_prog) /\ without (is_cc 78) (told chosen_prog) /\ without (is_cc 65) (told chosen_prog) /\
  without remaps (told chosen_prog) /\ without remapping (told chosen_prog) /\ without (is_cc 77) (told chosen_prog) /\ without edits_fm (told chosen_prog) /\
  without stores (told chosen_prog) /\ drums_in_order (meanings [] chosen_prog) /\ (length (filter (fun k => Z.eqb (fst k) 0) (MidiSpec.held (meanings [] chosen_prog))) < 10)%nat /\
  0 <= bent (meanings [] chosen_prog) 0 60 /\ pitched (meanings [] chosen_prog) 0 60 = 6000 /\ st_prog (settings (meanings [] chosen_prog) 0) = 5 /\
  exists s out, read_up (shipped false) no_cartridge blank_memory 5 all_there across 1 (chosen_prog ++ [NoteOn 0 60 100]) s out /\ key_state out 0 = Some true /\ chip_freq out 0 = Some (4, 644).
Proof. exact c114_example. Qed.

(** A key pressed over one transport cannot be released over another: all messages
    received leave no key down, and the FM channel is still keyed on. *)
Theorem C114_across_refuted :
  MidiSpec.held (meanings [] (chosen_prog ++ [NoteOn 0 60 100] ++ [NoteOff 0 60 64])) = [] /\
  exists s out, read_up (shipped false) no_cartridge blank_memory 5 all_there across 1 (chosen_prog ++ [NoteOn 0 60 100]) s out /\
    arrivals 0 across = stream [NoteOff 0 60 64] /\ hb_queue s 0 = arrivals 0 across /\ key_state out 0 = Some true.
Proof. exact c114_across. Qed.
Print Assumptions C114_across_refuted.
