(** Editing sounds, raw register writes, samples and special mode. *)
From Verif Require Import Base SynthModel SynthSpec MidiModel MidiSpec RomData DevModel DevSpec AppModel AppSpec AppExampleProofs SoundSpec EditSpec EditProofs VoiceProofs LevelProofs EditExampleProofs.

(** ** C98: the sound-editing controllers set exactly the parameter they name *)
Theorem C98_edits : forall r hw mem ops s0 tr0 c k v f, history r hw mem ops s0 tr0 -> without raw_write ops -> without remaps ops -> editing (map message ops) = true ->
  0 <= c < 6 -> 0 <= v < 128 -> edits k c = Some f ->
  exists s o, history r hw mem (ops ++ [AMsg (MCc c k v)]) s (tr0 ++ o) /\
    field_read f (ym_regs (tr0 ++ o)) = Some (dial f v) /\
    (forall g, present g -> g <> f -> field_read g (ym_regs (tr0 ++ o)) = field_read g (ym_regs tr0)).
Proof. exact edit_static. Qed.
Print Assumptions C98_edits.

(** In any mode of assignment: the voices serving the channel, and only those; notes,
    their pitch and their level stay as they are. *)
Theorem C98_served : forall r hw mem ops s0 tr0 c k v, history r hw mem ops s0 tr0 -> without raw_write ops -> editing (map message ops) = true ->
  is_chan c -> 0 <= v < 128 -> edits k 0 <> None ->
  exists s o, history r hw mem (ops ++ [AMsg (MCc c k v)]) s (tr0 ++ o) /\
    (forall i d f, serves (a_midi s0) c i d -> edits k (d_num d) = Some f -> field_read f (ym_regs (tr0 ++ o)) = Some (dial f v)) /\
    (forall g, present g -> (forall i d, serves (a_midi s0) c i d -> edits k (d_num d) <> Some g) ->
       field_read g (ym_regs (tr0 ++ o)) = field_read g (ym_regs tr0)) /\
    (forall n, key_state (tr0 ++ o) n = key_state tr0 n) /\ (forall n, chip_freq (tr0 ++ o) n = chip_freq tr0 n) /\
    (forall n q, 0 <= n < 6 -> 0 <= q < 4 -> chip_tl (ym_regs (tr0 ++ o)) n q = chip_tl (ym_regs tr0) n q) /\
    filter psg_event o = [] /\ Forall (eq (EvMidiChange 2 c k v)) (filter other_event o) /\ a_midi s = a_midi s0.
Proof. exact edit_controls. Qed.
Print Assumptions C98_served.

(** Turned off, they reach no chip. *)
Theorem C98_off : forall r hw mem ops s0 tr0 c k v, history r hw mem ops s0 tr0 -> editing (map message ops) = false ->
  is_chan c -> 0 <= v < 128 -> edits k 0 <> None ->
  exists s o, history r hw mem (ops ++ [AMsg (MCc c k v)]) s (tr0 ++ o) /\ Forall (eq (EvMidiChange 2 c k v)) o.
Proof. exact edit_off. Qed.
Print Assumptions C98_off.

Example C98_nonvacuous : without raw_write tweak /\ without remaps tweak /\ editing (map message tweak) = true /\ edits 43 0 = Some (FAttack 0 0) /\ dial (FAttack 0 0) 100 = 25 /\
  editing (map message (tweak ++ [AMsg (own_sysex 4 [0])])) = false /\
  exists s tr, history (shipped false) no_cartridge blank_memory (tweak ++ [AMsg (MCc 0 43 100)]) s tr /\
    field_read (FAttack 0 0) (ym_regs tr) = Some 25 /\ key_state tr 0 = Some true.
Proof. exact edit_example. Qed.

(** ** C99: a raw register write reaches the chip as sent *)
Theorem C99_written : forall r hw mem ops s0 tr0 part reg data, history r hw mem ops s0 tr0 -> part = 0 \/ part = 1 -> 0 <= reg < 256 -> 0 <= data < 256 ->
  exists s o, history r hw mem (ops ++ [AMsg (raw_message part reg data)]) s (tr0 ++ o) /\
    ym_writes o = [(part, reg, data)] /\ Forall (fun e => fm_event e = true) o /\
    a_midi s = a_midi s0 /\ v_synth (a_dev s) = v_synth (a_dev s0).
Proof. exact raw_writes. Qed.
Print Assumptions C99_written.

(** With any other number of data bytes it is ignored. *)
Theorem C99_ignored : forall r hw mem ops s0 tr0 k args, history r hw mem ops s0 tr0 -> k = 8 \/ k = 9 -> mop_ok (own_sysex k args) -> length args <> 4%nat ->
  history r hw mem (ops ++ [AMsg (own_sysex k args)]) s0 tr0.
Proof. exact raw_ignored. Qed.
Print Assumptions C99_ignored.

Example C99_nonvacuous : raw_message 1 0xB4 0xC0 = MSysex [0x00; 0x22; 0x77; 9; 0xB; 4; 0xC; 0] /\
  exists s tr, history (shipped false) no_cartridge blank_memory tweak s tr.
Proof. exact raw_example. Qed.

(** ** C100: the sample channel *)
(** A key starts its sample, or nothing when it has none, and touches neither chip. *)
Theorem C100_starts_partial : forall r hw mem ops p v s0 tr0, history r hw mem ops s0 tr0 -> MidiSpec.seven p -> 1 <= v <= 127 -> without remaps ops ->
  sampling (map message ops) = true -> tn_glide (tuned (map message ops)) 5 = false ->
  (length (filter (fun k => Z.eqb (fst k) 5) (held (map message ops))) < 10)%nat ->
  0 <= bent (map message ops) 5 p -> 0 <= pitched (map message ops) 5 p -> pitched (map message ops) 5 p / 100 < 128 ->
  exists s, history r hw mem (ops ++ [AMsg (MNoteOn 5 p v)]) s (tr0 ++ sample_start r (pitched (map message ops) 5 p / 100)).
Proof. exact sample_starts. Qed.
Print Assumptions C100_starts_partial.

(** Releasing the only key held stops it. *)
Theorem C100_stops_partial : forall r hw mem ops p v s0 tr0, history r hw mem ops s0 tr0 -> MidiSpec.seven p -> 1 <= v <= 127 -> without remaps ops ->
  sampling (map message ops) = true -> tn_glide (tuned (map message ops)) 5 = false ->
  filter (fun k => Z.eqb (fst k) 5) (held (map message ops)) = [] ->
  0 <= bent (map message ops) 5 p -> 0 <= pitched (map message ops) 5 p -> pitched (map message ops) 5 p / 100 < 128 ->
  exists s, history r hw mem (ops ++ [AMsg (MNoteOn 5 p v)] ++ [AMsg (MNoteOff 5 p)]) s (tr0 ++ sample_start r (pitched (map message ops) 5 p / 100) ++ [EvPcmStop]).
Proof. exact sample_stops. Qed.
Print Assumptions C100_stops_partial.

(** All Notes Off does not stop a sample. *)
Theorem C100_all_notes_off_refuted : ~ forall r hw mem ops v s tr, history r hw mem (ops ++ [AMsg (MCc 5 123 v)]) s tr -> sample_playing tr = false.
Proof. exact samples_ring_on. Qed.
Print Assumptions C100_all_notes_off_refuted.
(** Reset All Controllers gives the channel back to FM but not the chip's output. *)
Theorem C100_reset_refuted : ~ forall r hw mem ops s tr, history r hw mem ops s tr -> without remaps ops -> key_state tr 5 = Some true -> dac_selected (ym_regs tr) = false.
Proof. exact sixth_muted. Qed.
Print Assumptions C100_reset_refuted.

Example C100_nonvacuous : without remaps drums /\ sampling (map message drums) = true /\ tn_glide (tuned (map message drums)) 5 = false /\
  filter (fun k => Z.eqb (fst k) 5) (held (map message drums)) = [] /\ bent (map message drums) 5 35 = 3500 /\ pitched (map message drums) 5 35 = 3500 /\
  sample_start (shipped false) 35 = [EvPcmStart 8] /\ sample_start (shipped false) 20 = [] /\
  exists s tr, history (shipped false) no_cartridge blank_memory drums s tr.
Proof. exact drums_example. Qed.

(** ** C101: the voices of special mode *)
(** A note on one of the last three channels sets the frequency of its operator, and
    writes nothing but that and the operator's level, which if it is heard is the level
    of the sound at the velocity of the note and the volume of the third channel. *)
Theorem C101_pitch_partial : forall r hw mem ops s0 tr0, history r hw mem ops s0 tr0 -> without remaps ops ->
  forall q p v, 0 <= q < 3 -> MidiSpec.seven p -> 1 <= v <= 127 -> tn_glide (tuned (map message ops)) (10 + q) = false ->
  (length (filter (fun k => Z.eqb (fst k) (10 + q)%Z) (held (map message ops))) < 10)%nat ->
  0 <= bent (map message ops) (10 + q) p -> 0 <= pitched (map message ops) (10 + q) p -> 11 <= pitched (map message ops) (10 + q) p / 100 <= 106 ->
  exists s o, history r hw mem (ops ++ [AMsg (MNoteOn (10 + q) p v)]) s (tr0 ++ o) /\
    special_freq (ym_regs (tr0 ++ o)) q = Some (fm_note r (pitched (map message ops) (10 + q) p / 100) (pitched (map message ops) (10 + q) p mod 100)) /\
    (forall n, key_state (tr0 ++ o) n = key_state tr0 n) /\ Forall (special_write q) (ym_writes o) /\
    Forall (fun e => fm_event e = true) o /\
    (forall ch x vol, zget (s_chans (v_synth (a_dev s0))) 2 = Some ch -> zget (c_ops ch) q = Some x -> zget (s_vols (v_synth (a_dev s0))) 2 = Some vol ->
       chip_tl (ym_regs (tr0 ++ o)) 2 q =
       if is_carrier (c_alg ch) q then Some (expected_level (c_alg ch) vol q (expected_level (c_alg ch) v q (o_tl x))) else chip_tl (ym_regs tr0) 2 q).
Proof. exact special_begins. Qed.
Print Assumptions C101_pitch_partial.

(** Releasing it sends nothing. *)
Theorem C101_release : forall r hw mem ops s0 tr0, history r hw mem ops s0 tr0 -> without remaps ops ->
  forall q p, 0 <= q < 3 -> MidiSpec.seven p -> filter (fun k => (fst k =? 10 + q) && negb (snd k =? p)) (held (map message ops)) = [] ->
  exists s, history r hw mem (ops ++ [AMsg (MNoteOff (10 + q) p)]) s tr0.
Proof. exact special_release. Qed.
Print Assumptions C101_release.

(** So a released operator goes on sounding with the third channel. *)
Theorem C101_silence_refuted : ~ forall r hw mem ops q p v s tr, 0 <= q < 3 -> history r hw mem (ops ++ [AMsg (MNoteOn (10 + q) p v); AMsg (MNoteOff (10 + q) p)]) s tr ->
  key_state tr 2 = Some true -> chip_tl (ym_regs tr) 2 q = Some 127.
Proof. exact operators_ring_on. Qed.
Print Assumptions C101_silence_refuted.

Example C101_nonvacuous : without remaps split_voice /\ tn_glide (tuned (map message split_voice)) 10 = false /\
  filter (fun k => Z.eqb (fst k) 10) (held (map message split_voice)) = [] /\ bent (map message split_voice) 10 64 = 6400 /\ pitched (map message split_voice) 10 64 = 6400 /\
  fm_note (shipped false) 64 0 = (4, 810) /\
  exists s tr, history (shipped false) no_cartridge blank_memory split_voice s tr.
Proof. exact split_example. Qed.

(** ** C102: the level controllers *)
(** In fixed assignment: the level goes to that operator's register, scaled by the volume
    if the operator is heard, and nothing else is written. The one exception: a level
    told again is not sent again, so it must be in the chip already. *)
Theorem C102_levels_partial : forall r hw mem ops s0 tr0 c q v, history r hw mem ops s0 tr0 -> without remaps ops -> editing (map message ops) = true ->
  0 <= c < 6 -> 0 <= q < 4 -> 0 <= v < 128 ->
  exists s o ch y vl, history r hw mem (ops ++ [AMsg (MCc c (16 + q) v)]) s (tr0 ++ o) /\
    zget (s_chans (v_synth (a_dev s0))) c = Some ch /\ zget (c_ops ch) q = Some y /\ zget (s_vols (v_synth (a_dev s0))) c = Some vl /\
    (o_tl y <> told_level (map message ops) v \/ chip_tl (ym_regs tr0) c q = Some (expected_level (c_alg ch) vl q (o_tl y)) ->
     chip_tl (ym_regs (tr0 ++ o)) c q = Some (expected_level (c_alg ch) vl q (told_level (map message ops) v))) /\
    Forall (fun w => fst w = (part_of c, oper_reg 0x40 c q)) (ym_writes o) /\ filter psg_event o = [] /\
    Forall (eq (EvMidiChange 2 c (16 + q) v)) (filter other_event o) /\ a_midi s = a_midi s0.
Proof. exact level_static. Qed.
Print Assumptions C102_levels_partial.

(** Told the level it has, an operator that has just become audible stays loud at volume 0. *)
Theorem C102_refuted : ~ forall r hw mem ops c q v s tr, history r hw mem (ops ++ [AMsg (MCc c (16 + q) v)]) s tr -> without remaps ops -> without raw_write ops ->
  editing (map message ops) = true -> levels_inverted (map message ops) = false -> 0 <= c < 6 -> 0 <= q < 4 ->
  exists ch vl, zget (s_chans (v_synth (a_dev s))) c = Some ch /\ zget (s_vols (v_synth (a_dev s))) c = Some vl /\
    chip_tl (ym_regs tr) c q = Some (expected_level (c_alg ch) vl q v).
Proof. exact levels_stay. Qed.
Print Assumptions C102_refuted.

Example C102_nonvacuous : without remaps fader /\ editing (map message fader) = true /\ told_level (map message fader) 30 = 30 /\
  told_level (map message (fader ++ [AMsg (own_sysex 7 [1])])) 30 = 97 /\
  exists s tr, history (shipped false) no_cartridge blank_memory (fader ++ [AMsg (own_sysex 7 [1]); AMsg (MCc 0 16 30)]) s tr /\
    chip_tl (ym_regs tr) 0 0 = Some 97 /\ chip_tl (ym_regs tr) 0 1 = Some 4.
Proof. exact fader_example. Qed.
