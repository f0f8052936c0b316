(** C86 to C89: the interface from the bytes on the serial cable to the chips.
    [running r hw mem arr evs m tr] (MachineSpec): after power-on, with [arr] in the
    receive buffer, the bytes, vertical blanks and steps of the main loop [evs] lead to
    state [m], and [tr] is everything written so far.  [received … l m tr]: moreover the
    bytes are those of the messages [l], none was lost, all have been read, and the main
    loop is between frames.

    Partial: [no_overrun] is assumed (C86_room says when it holds); C88 and C89 inherit
    the conditions of C31, C71, C84 and C85; C89 assumes that the main loop keeps up with
    the screen ([prompt]). *)
From Verif Require Import Base RingBufModel SchedulerModel PitchSpec PsgModel PsgSpec SynthModel SynthSpec MidiModel MidiSpec RxModel RxSpec SerialModel SerialSpec RomData.
From Verif Require Import DevModel DevSpec AppModel AppSpec AppExampleProofs SoundSpec SongSpec MachineModel MachineSpec.
From Verif Require Import MachineProofs MachineRunProofs MachineWireProofs MachineNoteProofs MachineSongProofs MachineExampleProofs.

(** ** C86: what arrives over the cable is performed, in order, and nothing else *)
(** Whenever the main loop is between frames, the messages read so far have been
    performed in order, and nothing else; the rest waits in the buffer. *)
Theorem C86_in_order : forall r hw mem arr evs m tr l rest, running r hw mem arr evs m tr -> Forall msg_ok l -> arrived evs ++ rest = stream l ->
  no_overrun r hw mem arr evs -> at_rest m ->
  exists l1 l2 read wait ops, l = l1 ++ l2 /\ arrived evs = read ++ wait /\ has_read l1 l2 read /\ (wait = [] <-> caught_up m) /\
    history r hw mem ops (mc_app m) tr /\ msgs ops = meanings [] l1.
Proof. exact machine_messages. Qed.
Print Assumptions C86_in_order.

(** Once everything has been read, all messages have been performed. *)
Theorem C86_all : forall r hw mem arr evs l m tr, received r hw mem arr evs l m tr -> exists ops, history r hw mem ops (mc_app m) tr /\ msgs ops = meanings [] l.
Proof. exact machine_messages_all. Qed.
Print Assumptions C86_all.

(** When the cable falls silent, 520 steps of the main loop suffice to read what waits. *)
Theorem C86_catches_up : forall r hw mem arr evs more m tr l rest, running r hw mem arr (evs ++ more) m tr -> Forall msg_ok l -> arrived evs ++ rest = stream l ->
  no_overrun r hw mem arr evs -> arrived more = [] -> (520 <= turns more)%nat ->
  caught_up m /\ exists pre post m1 tr1, more = pre ++ post /\ running r hw mem arr (evs ++ pre) m1 tr1 /\ at_rest m1 /\ caught_up m1.
Proof. exact machine_drains. Qed.
Print Assumptions C86_catches_up.

(** No byte is lost if at most 500 bytes more arrive, over any stretch of time, than the
    main loop makes steps. *)
Theorem C86_room : forall r hw mem arr evs, Forall SerialSpec.byte_ok (arrived evs) -> bucket_within 500 0 evs -> no_overrun r hw mem arr evs.
Proof. exact bucket_no_overrun. Qed.
Print Assumptions C86_room.

(** The interface never stops at a fault.  Partial: unless the sample channel is switched
    on (C48) or half a byte of an envelope uploaded (C27). *)
Theorem C86_runs_on_partial : forall r hw mem arr evs l rest, rom_ok r -> mem_ok mem -> (512 <= length arr)%nat -> Forall msg_ok l -> Forall calm (meanings [] l) ->
  arrived evs ++ rest = stream l -> no_overrun r hw mem arr evs -> exists m tr, running r hw mem arr evs m tr.
Proof. exact machine_total. Qed.
Print Assumptions C86_runs_on_partial.

(** The hypotheses hold in the middle of a message, with a byte waiting. *)
Example C86_nonvacuous : arrived cut_evs ++ [100] = stream [NoteOn 6 69 100; NoteOn 0 60 100] /\ bucket_within 500 0 (cut_evs ++ repeat BMain 10) /\
  Forall calm (meanings [] [NoteOn 6 69 100; NoteOn 0 60 100]) /\ no_overrun (shipped false) no_cartridge blank_memory empty_buffer cut_evs /\
  exists m tr, running (shipped false) no_cartridge blank_memory empty_buffer cut_evs m tr /\ at_rest m /\ ~ caught_up m.
Proof. exact cut_example. Qed.

(** ** C87: every screen refresh is one frame of music *)
(** A frame is performed at most once for every vertical blank, and exactly once if the
    main loop keeps up with the screen ([pending m] is the blank that has just come). *)
Theorem C87_frames : forall r hw mem arr evs m tr l rest, running r hw mem arr evs m tr -> Forall msg_ok l -> arrived evs ++ rest = stream l ->
  no_overrun r hw mem arr evs -> at_rest m ->
  exists ops, history r hw mem ops (mc_app m) tr /\ frames_done ops <= blanks evs /\ (prompt r hw mem arr evs -> frames_done ops = blanks evs - pending m).
Proof. exact machine_frames. Qed.
Print Assumptions C87_frames.

(** It does not keep up while it waits for the rest of a message: from the first byte of
    a message to its last nothing is performed and nothing written, however many blanks
    pass. *)
Theorem C87_stalls : forall r hw mem arr evs more m tr m' tr' l x part tail, running r hw mem arr evs m tr -> running r hw mem arr (evs ++ more) m' tr' ->
  Forall msg_ok (l ++ [x]) -> opens x -> encode x = part ++ tail -> part <> [] -> tail <> [] -> arrived evs = stream l ++ part ->
  no_overrun r hw mem arr evs -> at_rest m -> caught_up m -> arrived more = [] -> tr' = tr /\ mc_app m' = mc_app m.
Proof. exact machine_stalls. Qed.
Print Assumptions C87_stalls.

(** So music does not go on with every screen refresh: there are runs in which a note
    sounds, and nothing happens for any number of blanks with ten steps of the main
    loop to each. *)
Theorem C87_refuted : forall n, exists l rest evs more m tr m' tr', Forall msg_ok l /\ arrived evs ++ rest = stream l /\ arrived more = [] /\
  blanks more = Z.of_nat n /\ turns more = (10 * n)%nat /\
  running (shipped false) no_cartridge blank_memory empty_buffer evs m tr /\ at_rest m /\ chip_att att_at_boot tr 0 <> 15 /\
  running (shipped false) no_cartridge blank_memory empty_buffer (evs ++ more) m' tr' /\ tr' = tr /\ mc_app m' = mc_app m.
Proof. exact half_stalls. Qed.
Print Assumptions C87_refuted.

(** The hypotheses hold of a whole piece, and of half a Note On after a note that sounds. *)
Example C87_nonvacuous : (prompt (shipped false) no_cartridge blank_memory empty_buffer song_evs /\ blanks song_evs = 3 /\
  exists m tr, received (shipped false) no_cartridge blank_memory empty_buffer song_evs song m tr /\ pending m = 0) /\
  opens (NoteOn 0 60 100) /\ encode (NoteOn 0 60 100) = [0x90; 60] ++ [100] /\ Forall msg_ok ([NoteOn 6 69 100] ++ [NoteOn 0 60 100]) /\
  arrived half_evs = stream [NoteOn 6 69 100] ++ [0x90; 60] /\ no_overrun (shipped false) no_cartridge blank_memory empty_buffer half_evs /\
  exists m tr, running (shipped false) no_cartridge blank_memory empty_buffer half_evs m tr /\ at_rest m /\ caught_up m /\ chip_att att_at_boot tr 0 <> 15.
Proof.
  split; [|exact half_example]. split; [exact song_prompt|]. split; [reflexivity|]. destruct song_received as (m & tr & R & P & _). exists m, tr. auto.
Qed.

(** ** C88: FM notes, from the cable to the chip *)
(** When every key pressed has been released, no FM channel is keyed on. *)
Theorem C88_silent_partial : forall r hw mem arr evs l m tr n, received r hw mem arr evs l m tr -> 0 <= n < 6 ->
  without raw_write (told l) -> without (is_cc 78) (told l) -> without (is_cc 65) (told l) -> without remapping (told l) ->
  MidiSpec.held (meanings [] l) = [] -> key_state tr n = Some false.
Proof. exact wire_silent. Qed.
Print Assumptions C88_silent_partial.

(** A keyed-on FM channel plays a key that is down. *)
Theorem C88_held_partial : forall r hw mem arr evs l m tr n, received r hw mem arr evs l m tr -> 0 <= n < 6 ->
  without raw_write (told l) -> without (is_cc 78) (told l) -> without (is_cc 65) (told l) -> without remapping (told l) ->
  key_state tr n = Some true -> exists d, dev_at (a_midi (mc_app m)) n d /\ d_on d = true /\ In (d_midi d, note_of d) (MidiSpec.held (meanings [] l)).
Proof. exact wire_held. Qed.
Print Assumptions C88_held_partial.

(** A Note On keys its channel on, at the bent pitch. *)
Theorem C88_heard_partial : forall r hw mem arr evs l c p v m tr, received r hw mem arr evs (l ++ [NoteOn c p v]) m tr -> 0 <= c < 6 -> 1 <= v ->
  without raw_write (told l) -> without (is_cc 78) (told l) -> without (is_cc 65) (told l) -> without remaps (told l) ->
  (length (filter (fun k => Z.eqb (fst k) c) (MidiSpec.held (meanings [] l))) < 10)%nat ->
  let x := pitched (meanings [] l) c p in
  0 <= bent (meanings [] l) c p -> 0 <= x -> 11 <= x / 100 <= 106 ->
  key_state tr c = Some true /\ chip_freq tr c = Some (fm_note r (x / 100) (x mod 100)).
Proof. exact wire_heard. Qed.
Print Assumptions C88_heard_partial.

(** It plays the selected instrument, at the level and on the side set. *)
Theorem C88_voice_partial : forall r hw mem arr evs l c p v m tr, received r hw mem arr evs (l ++ [NoteOn c p v]) m tr -> 0 <= c < 6 -> 1 <= v ->
  without raw_write (told l) -> without (is_cc 78) (told l) -> without (is_cc 65) (told l) -> without remaps (told l) ->
  without remapping (told l) -> without (is_cc 77) (told l) -> without edits_fm (told l) -> without stores (told l) ->
  drums_in_order (meanings [] l) -> c <> 2 \/ without sm_note (told l) ->
  (length (filter (fun k => Z.eqb (fst k) c) (MidiSpec.held (meanings [] l))) < 10)%nat ->
  let x := pitched (meanings [] l) c p in
  let st := settings (meanings [] l) c in
  let instrument := nth (Z.to_nat (st_prog st)) (rom_presets r) no_preset in
  0 <= bent (meanings [] l) c p -> 0 <= x -> 11 <= x / 100 <= 106 ->
  plays_preset (ym_regs tr) c instrument /\ plays_level (ym_regs tr) c instrument (loudness (st_vol st) v) /\ chip_st (ym_regs tr) c = Some (pan_side (st_pan st)).
Proof. exact wire_voice. Qed.
Print Assumptions C88_voice_partial.

(** The hypotheses hold of a note after an upload and a PSG note, and of a key pressed
    and released. *)
Example C88_nonvacuous : without raw_write (told earlier) /\ without (is_cc 78) (told earlier) /\ without (is_cc 65) (told earlier) /\
  without remaps (told earlier) /\ without remapping (told earlier) /\ without (is_cc 77) (told earlier) /\ without edits_fm (told earlier) /\
  without stores (told earlier) /\ drums_in_order (meanings [] earlier) /\
  (length (filter (fun k => Z.eqb (fst k) 0) (MidiSpec.held (meanings [] earlier))) < 10)%nat /\
  0 <= bent (meanings [] earlier) 0 60 /\ pitched (meanings [] earlier) 0 60 = 6000 /\
  exists m tr, received (shipped false) no_cartridge blank_memory empty_buffer song_evs (earlier ++ [NoteOn 0 60 100]) m tr /\
    key_state tr 0 = Some true /\ chip_freq tr 0 = Some (4, 644).
Proof. exact fm_wire_example. Qed.
Example C88_silent_nonvacuous : without raw_write (told tap) /\ without (is_cc 78) (told tap) /\ without (is_cc 65) (told tap) /\ without remapping (told tap) /\
  MidiSpec.held (meanings [] tap) = [] /\ exists m tr, received (shipped false) no_cartridge blank_memory empty_buffer tap_evs tap m tr /\ pending m = 0 /\ blanks tap_evs = 2.
Proof. exact tap_example. Qed.

(** ** C89: PSG notes, from the cable to the chip, timed by the screen *)
(** Envelopes step with the vertical blanks since the last byte of the Note On was read:
    a looping one repeats as long as the key is down; *)
Theorem C89_held_partial : forall r hw mem arr evs l c p v more l2 m1 m tr pre body post junk,
  completes_with r hw mem arr evs l (NoteOn c p v) m1 -> wire_psg l c p v ->
  received r hw mem arr (evs ++ BMain :: more) (l ++ NoteOn c p v :: l2) m tr -> prompt r hw mem arr (evs ++ BMain :: more) ->
  undisturbed c (told l2) -> in_range (told (l ++ NoteOn c p v :: l2)) c p ->
  voice_envelope r (told l) c (loop_env pre body post junk) -> Forall data_byte pre -> Forall data_byte body -> Forall data_byte post -> body <> [] ->
  note_sounds r (told (l ++ NoteOn c p v :: l2)) tr (c - 6) c p v (PsgSpec.held pre body (blanks more + pending m1 - pending m)).
Proof. exact wire_held_envelope. Qed.
Print Assumptions C89_held_partial.

(** one without a loop is played once; *)
Theorem C89_once_partial : forall r hw mem arr evs l c p v more l2 m1 m tr pre junk,
  completes_with r hw mem arr evs l (NoteOn c p v) m1 -> wire_psg l c p v ->
  received r hw mem arr (evs ++ BMain :: more) (l ++ NoteOn c p v :: l2) m tr -> prompt r hw mem arr (evs ++ BMain :: more) ->
  undisturbed c (told l2) -> in_range (told (l ++ NoteOn c p v :: l2)) c p ->
  voice_envelope r (told l) c (pre ++ 255 :: junk) -> Forall data_byte pre ->
  note_sounds r (told (l ++ NoteOn c p v :: l2)) tr (c - 6) c p v (once pre (blanks more + pending m1 - pending m)).
Proof. exact wire_once_envelope. Qed.
Print Assumptions C89_once_partial.

(** and after the release the loop is finished, the rest played, and the voice silent. *)
Theorem C89_released_partial : forall r hw mem arr evs l c p v mid l2 off y more l3 m1 m2 m tr pre body post junk,
  completes_with r hw mem arr evs l (NoteOn c p v) m1 -> wire_psg l c p v ->
  completes_with r hw mem arr (evs ++ BMain :: mid) (l ++ NoteOn c p v :: l2) off m2 -> meaning [] off = [y] -> opens off ->
  received r hw mem arr (evs ++ BMain :: mid ++ BMain :: more) (l ++ NoteOn c p v :: l2 ++ off :: l3) m tr -> prompt r hw mem arr (evs ++ BMain :: mid ++ BMain :: more) ->
  undisturbed c (told l2) -> in_range (told (l ++ NoteOn c p v :: l2)) c p ->
  lets_go (told (l ++ NoteOn c p v :: l2)) c p (c - 6) y -> left_alone (told (l ++ NoteOn c p v :: l2)) (told l3) c (c - 6) ->
  voice_envelope r (told l) c (loop_env pre body post junk) -> Forall data_byte pre -> Forall data_byte body -> Forall data_byte post -> body <> [] ->
  let down := blanks mid + pending m1 - pending m2 in
  let up := blanks more + pending m2 - pending m in
  note_sounds r (told (l ++ NoteOn c p v :: l2)) tr (c - 6) c p v (PsgSpec.released pre body post down up) /\
  (len body + len post <= up -> chip_att att_at_boot tr (c - 6) = 15).
Proof. exact wire_released_envelope. Qed.
Print Assumptions C89_released_partial.

(** The hypotheses hold of a note with an uploaded envelope, during which an FM note is
    played and three blanks pass, one of them in the middle of a message; *)
Example C89_nonvacuous : wire_psg [wave_up] 6 69 100 /\ undisturbed 6 (told [NoteOn 0 60 100]) /\ in_range (told song) 6 69 /\
  voice_envelope (shipped false) (told [wave_up]) 6 (loop_env [0x01] [0x23; 0x04] [0x05] []) /\
  prompt (shipped false) no_cartridge blank_memory empty_buffer (to_note ++ BMain :: meanwhile) /\
  exists m1 m tr, completes_with (shipped false) no_cartridge blank_memory empty_buffer to_note [wave_up] (NoteOn 6 69 100) m1 /\
    received (shipped false) no_cartridge blank_memory empty_buffer (to_note ++ BMain :: meanwhile) ([wave_up] ++ NoteOn 6 69 100 :: [NoteOn 0 60 100]) m tr /\
    PsgSpec.held [0x01] [0x23; 0x04] (blanks meanwhile + pending m1 - pending m) = Some 0x23 /\
    chip_att att_at_boot tr 0 = 4 /\ chip_tone tone_at_boot tr 0 = 253.
Proof. exact psg_wire_example. Qed.
(** and of its release. *)
Example C89_released_nonvacuous : lets_go (told song) 6 69 0 (MNoteOff 6 69) /\ left_alone (told song) (told []) 6 0 /\
  prompt (shipped false) no_cartridge blank_memory empty_buffer (to_note ++ BMain :: to_off ++ BMain :: afterwards) /\
  exists m1 m2 m tr, completes_with (shipped false) no_cartridge blank_memory empty_buffer to_note [wave_up] (NoteOn 6 69 100) m1 /\
    completes_with (shipped false) no_cartridge blank_memory empty_buffer (to_note ++ BMain :: to_off) ([wave_up] ++ NoteOn 6 69 100 :: [NoteOn 0 60 100]) (NoteOff 6 69 64) m2 /\
    received (shipped false) no_cartridge blank_memory empty_buffer (to_note ++ BMain :: to_off ++ BMain :: afterwards)
      ([wave_up] ++ NoteOn 6 69 100 :: [NoteOn 0 60 100] ++ NoteOff 6 69 64 :: []) m tr /\
    PsgSpec.released [0x01] [0x23; 0x04] [0x05] (blanks to_off + pending m1 - pending m2) (blanks afterwards + pending m2 - pending m) = Some 0x05 /\
    chip_att att_at_boot tr 0 = 6.
Proof. exact psg_release_example. Qed.
