(** Properties of the interface: tuning controllers that arrive while notes sound. *)
From Verif Require Import Base BaseLemmas PitchModel PitchSpec SynthModel SynthSpec MidiModel MidiSpec DevModel DevSpec AppModel AppSpec AppProofs SoundSpec AppExampleProofs.
From Verif Require Import NoteExampleProofs TuneSpec TuneProofs TuneExampleProofs.

(** ** C113: a new bend range is heard at once, and other tuning waits *)

(** A note that is bent follows a new bend range at once: its FM channel keeps its key
    and plays the pitch of the note bent by the wheel as it stands over the range as
    it has become.  Missing: totals outside the 256 keys of the arithmetic, raw
    register writes, the DAC switch and re-assignment; and released notes, see
    [C113_fading_refuted]. *)
Theorem C113_range_partial : forall r hw mem ops c k v s0 s tr0 o,
  history r hw mem ops s0 tr0 -> history r hw mem (ops ++ [AMsg (MCc c k v)]) s (tr0 ++ o) ->
  without raw_write ops -> k = 6 \/ k = 38 -> range_selected (settings (map message ops) c) = true ->
  forall n d, without remapping ops -> without (is_cc 78) ops ->
  0 <= n < 6 -> dev_at (a_midi s0) n d -> d_on d = true -> d_midi d = c -> st_bend (settings (map message ops) c) <> 8192 ->
  let t := settings (map message (ops ++ [AMsg (MCc c k v)])) c in
  let y := 100 * d_pitch d + d_cents d + bend_cents (st_bend t) (100 * st_semis t + st_cents t) in
  let x := y + tn_fine (tuned (map message ops)) c in
  0 <= y < 25600 -> 0 <= x < 25600 ->
  key_state (tr0 ++ o) n = key_state tr0 n /\ chip_freq (tr0 ++ o) n = Some (fm_note r (x / 100) (x mod 100)).
Proof. exact range_heard. Qed.
Print Assumptions C113_range_partial.

(** A new bend range presses and releases no key. *)
Theorem C113_keys_partial : forall r hw mem ops c k v s0 s tr0 o,
  history r hw mem ops s0 tr0 -> history r hw mem (ops ++ [AMsg (MCc c k v)]) s (tr0 ++ o) ->
  without raw_write ops -> k = 6 \/ k = 38 -> range_selected (settings (map message ops) c) = true ->
  forall n, 0 <= n < 6 -> key_state (tr0 ++ o) n = key_state tr0 n.
Proof. exact range_keys. Qed.
Print Assumptions C113_keys_partial.

(** The voices of the other MIDI channels keep their pitch. *)
Theorem C113_others_partial : forall r hw mem ops c k v s0 s tr0 o,
  history r hw mem ops s0 tr0 -> history r hw mem (ops ++ [AMsg (MCc c k v)]) s (tr0 ++ o) ->
  without raw_write ops -> k = 6 \/ k = 38 -> range_selected (settings (map message ops) c) = true ->
  forall n d, 0 <= n < 6 -> dev_at (a_midi s0) n d -> d_midi d <> c -> chip_freq (tr0 ++ o) n = chip_freq tr0 n.
Proof. exact range_others. Qed.
Print Assumptions C113_others_partial.

(** A note whose wheel rests in the middle keeps its pitch. *)
Theorem C113_centred_partial : forall r hw mem ops c k v s0 s tr0 o,
  history r hw mem ops s0 tr0 -> history r hw mem (ops ++ [AMsg (MCc c k v)]) s (tr0 ++ o) ->
  without raw_write ops -> k = 6 \/ k = 38 -> range_selected (settings (map message ops) c) = true ->
  forall n d, without remapping ops -> 0 <= n < 6 -> dev_at (a_midi s0) n d -> d_on d = true -> d_midi d = c ->
  st_bend (settings (map message ops) c) = 8192 -> chip_freq (tr0 ++ o) n = chip_freq tr0 n.
Proof. exact range_centred. Qed.
Print Assumptions C113_centred_partial.
Example C113_range_nonvacuous :
  without raw_write wide /\ without remapping wide /\ without (is_cc 78) wide /\ range_selected (settings (map message wide) 0) = true /\
  st_bend (settings (map message wide) 0) = 12288 /\ bent (map message (wide ++ [AMsg (MCc 0 6 12)])) 0 60 = 6600 /\
  exists s0 tr0 s o d e, history (shipped false) no_cartridge blank_memory wide s0 tr0 /\
    history (shipped false) no_cartridge blank_memory (wide ++ [AMsg (MCc 0 6 12)]) s (tr0 ++ o) /\
    dev_at (a_midi s0) 0 d /\ d_on d = true /\ d_midi d = 0 /\ d_pitch d = 60 /\ dev_at (a_midi s0) 1 e /\ d_midi e = 1 /\
    key_state tr0 0 = Some true /\ chip_freq tr0 0 = Some (4, 681) /\ chip_freq (tr0 ++ o) 0 = Some (4, 910) /\
    chip_freq tr0 1 = Some (4, 810) /\ chip_freq (tr0 ++ o) 1 = Some (4, 810).
Proof. exact c113_range_example. Qed.

(** A released note that is still fading should keep its pitch, or follow the range.
    It does neither: key 60 bent to 61 drops to key 6, because the interface has
    already forgotten which key it was. *)
Theorem C113_fading_refuted :
  without raw_write fading /\ without remapping fading /\ without (is_cc 78) fading /\ held (map message fading) = [(1, 64)] /\
  range_selected (settings (map message fading) 0) = true /\ fm_note (shipped false) 66 0 = (4, 910) /\ fm_note (shipped false) 6 0 = (0, 1146) /\
  exists s0 tr0 s o, history (shipped false) no_cartridge blank_memory fading s0 tr0 /\
    history (shipped false) no_cartridge blank_memory (fading ++ [AMsg (MCc 0 6 12)]) s (tr0 ++ o) /\
    key_state tr0 0 = Some false /\ chip_freq tr0 0 = Some (4, 681) /\ chip_freq (tr0 ++ o) 0 = Some (0, 1146).
Proof. exact c113_fading. Qed.
Print Assumptions C113_fading_refuted.

(** Fine tuning does not reach notes that sound: they keep the pitch they had. *)
Theorem C113_fine_refuted :
  without raw_write plain_note /\ without remapping plain_note /\ without (is_cc 78) plain_note /\ held (map message plain_note) = [(0, 60)] /\
  pitched (map message (plain_note ++ [AMsg (MCc 0 85 90)])) 0 60 = 6026 /\ fm_note (shipped false) 60 26 = (4, 653) /\
  exists s0 tr0 s o, history (shipped false) no_cartridge blank_memory plain_note s0 tr0 /\
    history (shipped false) no_cartridge blank_memory (plain_note ++ [AMsg (MCc 0 85 90)]) s (tr0 ++ o) /\
    key_state (tr0 ++ o) 0 = Some true /\ chip_freq (tr0 ++ o) 0 = Some (4, 644).
Proof. exact c113_fine. Qed.
Print Assumptions C113_fine_refuted.

(** Fine tuning, the glide settings, the choice of a device or of a parameter, the
    ignored pedals, and data entry for any other parameter than the bend range: after
    any history none of them writes to a chip. *)
Theorem C113_stored : forall r hw mem ops c k v s0 tr0 s o,
  history r hw mem ops s0 tr0 -> history r hw mem (ops ++ [AMsg (MCc c k v)]) s (tr0 ++ o) -> stored_only (settings (map message ops) c) k ->
  forall e, In e o -> e = EvMidiChange 2 c k v.
Proof. exact stored_quiet. Qed.
Print Assumptions C113_stored.
Example C113_stored_nonvacuous :
  stored_only (settings (map message plain_note) 0) 85 /\ stored_only (settings (map message plain_note) 0) 6 /\ ~ stored_only (settings (map message wide) 0) 6 /\
  ~ stored_only (settings (map message wide) 0) 7 /\
  exists s0 tr0 s o, history (shipped false) no_cartridge blank_memory plain_note s0 tr0 /\
    history (shipped false) no_cartridge blank_memory (plain_note ++ [AMsg (MCc 0 85 90)]) s (tr0 ++ o) /\ o = [EvMidiChange 2 0 85 90].
Proof. exact c113_stored. Qed.
