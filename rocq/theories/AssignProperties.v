(** C115: re-assigned device channels.
    [assigned] (AssignSpec) is the assignment the messages ask for; [only f c n] says that
    [n] is the only device channel that [f] gives to MIDI channel [c].

    Partial: FM channels only; C115_heard_partial fixed assignment and exactly one device
    channel, without portamento; no percussion, sample channel or raw register writes. *)
From Verif Require Import Base PitchSpec SynthModel SynthSpec MidiModel MidiSpec RomData DevModel DevSpec AppModel AppSpec AppExampleProofs SoundSpec.
From Verif Require Import AssignSpec AssignNoteProofs AssignOffProofs AssignChordProofs AssignExampleProofs.

(** Without requests for dynamic mode every device channel serves the MIDI channel it was
    last given to. *)
Theorem C115_table : forall r hw mem ops s tr, history r hw mem ops s tr -> without asks_mode ops ->
  forall i d, dev_at (a_midi s) i d -> d_midi d = assigned (map message ops) i.
Proof. exact assigned_table. Qed.
Print Assumptions C115_table.

(** A note of the MIDI channel an FM channel was given to is struck there, at the bent and
    tuned pitch of that MIDI channel. *)
Theorem C115_heard_partial : forall r hw mem ops c n p v s0 tr0, history r hw mem ops s0 tr0 -> is_chan c -> c <> 9 -> 0 <= n < 6 ->
  only (assigned (map message ops)) c n -> seven p -> 1 <= v <= 127 ->
  without asks_mode ops -> without (is_cc 78) ops -> without raw_write ops -> tn_glide (tuned (map message ops)) c = false ->
  (length (filter (fun k => Z.eqb (fst k) c) (held (map message ops))) < 10)%nat ->
  let x := pitched (map message ops) c p in
  0 <= bent (map message ops) c p -> 0 <= x -> 11 <= x / 100 <= 106 ->
  exists s o, history r hw mem (ops ++ [AMsg (MNoteOn c p v)]) s (tr0 ++ o) /\ key_state o n = Some true /\
    chip_freq (tr0 ++ o) n = Some (fm_note r (x / 100) (x mod 100)).
Proof. exact assigned_pitch. Qed.
Print Assumptions C115_heard_partial.

(** A chord: while a MIDI channel has two device channels or more and an FM channel among
    them is silent, its next note is struck on a silent FM channel of its own; every other FM
    channel keeps its key and its frequency.  In every mode; [m_sel] 0 and 1 are the device groups (CC 86) that hold
    the FM channels. *)
Theorem C115_chord_partial : forall r hw mem ops c k p v s0 tr0 d0 k2 d2 m0, history r hw mem ops s0 tr0 -> is_chan c -> c <> 9 -> 0 <= k < 6 ->
  dev_at (a_midi s0) k d0 -> d_on d0 = false -> d_midi d0 = c -> dev_at (a_midi s0) k2 d2 -> k2 <> k -> d_midi d2 = c ->
  ch_at (a_midi s0) c m0 -> 0 <= m_sel m0 <= 1 -> seven p -> 1 <= v <= 127 -> without (is_cc 78) ops -> without raw_write ops ->
  let x := pitched (map message ops) c p in
  0 <= bent (map message ops) c p -> 0 <= x -> 11 <= x / 100 <= 106 ->
  exists n d s o, 0 <= n < 6 /\ dev_at (a_midi s0) n d /\ d_on d = false /\ d_midi d = c /\
    history r hw mem (ops ++ [AMsg (MNoteOn c p v)]) s (tr0 ++ o) /\ key_state o n = Some true /\
    chip_freq (tr0 ++ o) n = Some (fm_note r (x / 100) (x mod 100)) /\
    forall j, 0 <= j < 6 -> j <> n -> key_state (tr0 ++ o) j = key_state tr0 j /\ chip_freq (tr0 ++ o) j = chip_freq tr0 j.
Proof. exact chord_pitch. Qed.
Print Assumptions C115_chord_partial.
Example C115_chord_nonvacuous :
  without (is_cc 78) two_voices /\ without raw_write two_voices /\
  bent (map message two_voices) 0 64 = 6400 /\ pitched (map message two_voices) 0 64 = 6400 /\
  exists s0 tr0 s o d0 d2 m0, history (shipped false) no_cartridge blank_memory two_voices s0 tr0 /\
    dev_at (a_midi s0) 1 d0 /\ d_on d0 = false /\ d_midi d0 = 0 /\ dev_at (a_midi s0) 0 d2 /\ d_midi d2 = 0 /\ ch_at (a_midi s0) 0 m0 /\ m_sel m0 = 0 /\
    history (shipped false) no_cartridge blank_memory (two_voices ++ [AMsg (MNoteOn 0 64 100)]) s (tr0 ++ o) /\
    key_state tr0 0 = Some true /\ key_state (tr0 ++ o) 0 = Some true /\ key_state o 1 = Some true.
Proof. exact c115_chord_example. Qed.

(** A note of a MIDI channel without a device channel changes nothing and writes to no
    chip. *)
Theorem C115_left : forall r hw mem ops c p v s0 tr0 s o, history r hw mem ops s0 tr0 -> without asks_mode ops -> 1 <= v ->
  (forall i, 0 <= i < 13 -> assigned (map message ops) i <> c) ->
  history r hw mem (ops ++ [AMsg (MNoteOn c p v)]) s (tr0 ++ o) -> o = [] /\ a_midi s = a_midi s0 /\ a_dev s = a_dev s0.
Proof. exact assigned_none. Qed.
Print Assumptions C115_left.

(** Re-assigning writes to no chip, in any mode. *)
Theorem C115_quiet : forall r hw mem ops c k s0 tr0 s o, history r hw mem ops s0 tr0 ->
  history r hw mem (ops ++ [AMsg (own_sysex 0 [c; k])]) s (tr0 ++ o) -> o = [].
Proof. exact assigning_quiet. Qed.
Print Assumptions C115_quiet.

(** FM channel 3, given to MIDI channel 14: that plays, MIDI channel 3 does not. *)
Example C115_nonvacuous :
  without asks_mode moving /\ without (is_cc 78) moving /\ without raw_write moving /\ only (assigned (map message moving)) 13 2 /\
  (forall i, 0 <= i < 13 -> assigned (map message moving) i <> 2) /\
  tn_glide (tuned (map message moving)) 13 = false /\ held (map message moving) = [] /\ bent (map message moving) 13 60 = 6100 /\ pitched (map message moving) 13 60 = 6100 /\
  exists s0 tr0 s o, history (shipped false) no_cartridge blank_memory moving s0 tr0 /\
    history (shipped false) no_cartridge blank_memory (moving ++ [AMsg (MNoteOn 13 60 100)]) s (tr0 ++ o) /\
    key_state tr0 2 = Some false /\ key_state o 2 = Some true.
Proof. exact c115_example. Qed.

(** False: a note that sounds while its FM channel is given away can be released.  No key
    is down any more and the FM channel is still keyed on (midi.c:484-508 looks for it
    among the device channels of its MIDI channel). *)
Theorem C115_hangs_refuted :
  held (map message (given_away ++ [AMsg (MNoteOff 0 60)])) = [] /\
  exists s0 tr0 s o, history (shipped false) no_cartridge blank_memory given_away s0 tr0 /\
    history (shipped false) no_cartridge blank_memory (given_away ++ [AMsg (MNoteOff 0 60)]) s (tr0 ++ o) /\
    key_state (tr0 ++ o) 0 = Some true.
Proof. exact c115_hangs. Qed.
Print Assumptions C115_hangs_refuted.

(** ** C30: whatever the assignment, mode and portamento *)
(** The FM channel that sounds the only key down on its MIDI channel is keyed off by the
    Note Off of that key.  (C30_chip_partial speaks of more keys, without portamento.) *)
Theorem C30_only_key_partial : forall r hw mem ops c n p s tr d, history r hw mem ops s tr -> is_chan c -> seven p -> 0 <= n < 6 ->
  dev_at (a_midi s) n d -> d_on d = true -> d_midi d = c -> note_of d = p ->
  (forall q, In (c, q) (held (map message ops)) -> q = p) -> without (is_cc 78) ops ->
  exists s' o, history r hw mem (ops ++ [AMsg (MNoteOff c p)]) s' (tr ++ o) /\ key_state o n = Some false.
Proof. exact assigned_released. Qed.
Print Assumptions C30_only_key_partial.
Example C30_only_key_nonvacuous :
  without (is_cc 78) moved_note /\ held (map message moved_note) = [(13, 60)] /\
  exists s0 tr0 s o d, history (shipped false) no_cartridge blank_memory moved_note s0 tr0 /\
    history (shipped false) no_cartridge blank_memory (moved_note ++ [AMsg (MNoteOff 13 60)]) s (tr0 ++ o) /\
    dev_at (a_midi s0) 2 d /\ d_on d = true /\ d_midi d = 13 /\ note_of d = 60 /\ key_state tr0 2 = Some true /\ key_state o 2 = Some false.
Proof. exact c30_only_example. Qed.
