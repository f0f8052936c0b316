(** C29, C30, C32-C44, C46-C48, C63: the MIDI layer.
    [boots_to ops s o]: power-on and the well-formed messages [ops] lead to
    state [s] and the calls [o] to the sound layers. *)
From Verif Require Import Base SynthModel PitchModel MidiModel MidiSpec MidiMonoProofs MidiClaimsProofs MidiEffectProofs.
From Verif Require MidiNoteProofs MidiHistProofs MidiMapProofs MidiStaticProofs MidiChanProofs MidiCarryProofs MidiTableProofs MidiSysexProofs MidiGlideProofs.

(** C29.  Full statement: after every sequence of key presses and releases the
    voice sounds the last key pressed among those still held.  It is false (below);
    proved are nested playing, one release out of order, and legato lines. *)
Theorem C29_nested_partial :
  forall (s : midi) (c : Z) (pre suf : list (Z * Z)),
    mono_idle s c -> Forall playable (pre ++ suf) -> NoDup (map fst (pre ++ suf)) -> (length (pre ++ suf) <= 10)%nat ->
    let ops := presses c (pre ++ suf) ++ releases c (rev suf) in
    exists s' o, midi_run ops s = WDone s' o /\ sounds_only s' c (expected_key c ops).
Proof. exact mono_nested_expected. Qed.
Print Assumptions C29_nested_partial.

Theorem C29_one_release_partial :
  forall (s : midi) (c : Z) (l : list (Z * Z)) (k : Z * Z),
    mono_idle s c -> Forall playable l -> NoDup (map fst l) -> (length l <= 10)%nat -> In k l ->
    let ops := presses c l ++ [MNoteOff c (fst k)] in
    exists s' o, midi_run ops s = WDone s' o /\ sounds_only s' c (expected_key c ops).
Proof. exact mono_one_release_expected. Qed.
Print Assumptions C29_one_release_partial.

Theorem C29_legato_partial :
  forall (s : midi) (c a v : Z) (l : list (Z * Z)),
    mono_idle s c -> Forall playable ((a, v) :: l) ->
    (forall l1 b b' l2, (a, v) :: l = l1 ++ b :: b' :: l2 -> fst b <> fst b') ->
    let ops := MNoteOn c a v :: legato c a l in
    exists s' o, midi_run ops s = WDone s' o /\ sounds_only s' c (expected_key c ops).
Proof. exact mono_legato_expected. Qed.
Print Assumptions C29_legato_partial.

(** Hold 60, play 64 twice: silence, though 60 is still held. *)
Theorem C29_refuted :
  ~ (forall ops c s o, 0 <= c < 13 -> Forall (key_message c) ops -> boots_to ops s o ->
       (length (held ops) <= 10)%nat -> sounds_only s c (expected_key c ops)).
Proof. exact c29_refuted. Qed.
Print Assumptions C29_refuted.

(** False even when no key is pressed twice. *)
Theorem C29_order_refuted :
  ~ (forall ops c s o, 0 <= c < 13 -> Forall (key_message c) ops -> boots_to ops s o ->
       NoDup (flat_map (fun op => match op with MNoteOn _ p _ => [p] | _ => [] end) ops) ->
       sounds_only s c (expected_key c ops)).
Proof. exact c29_refuted_order. Qed.
Print Assumptions C29_order_refuted.

Example C29_nonvacuous :
  mono_idle booted 5 /\
  expected_key 5 (presses 5 [(60, 90); (64, 91); (67, 92)] ++ releases 5 [(67, 0)]) = Some 64 /\
  expected_key 5 (presses 5 [(60, 90); (64, 91); (67, 92)] ++ [MNoteOff 5 60]) = Some 67 /\
  expected_key 5 (MNoteOn 5 60 90 :: legato 5 60 [(64, 91); (67, 92)]) = Some 67.
Proof. split; [apply booted_idle; lia|]. repeat split. Qed.

(** C30.  Full statement: for every history.  False with portamento switched
    during a glide; proved for histories without the portamento switch. *)
Theorem C30_note_off_partial :
  forall (ops : list mop) (s : midi) (o : list dcall) (c p : Z) (s' : midi) (o' : list dcall),
    Forall (fun op => ~ is_cc 65 op) ops -> boots_to ops s o -> is_chan c ->
    steps s (MNoteOff c p) s' o' -> ~ sounds s' c p.
Proof. exact MidiHistProofs.note_off_history. Qed.
Print Assumptions C30_note_off_partial.

(** What happens to the voice: it is released, or taken by another remembered key. *)
Theorem C30_voice_released :
  forall (c p : Z) (s s' : midi) (o : list dcall) (m : mchan) (i : Z) (d : dev),
    midi_ok s -> is_chan c -> ch_at s c m -> steps s (MNoteOff c p) s' o ->
    serves s c i d -> d_on d = true -> note_of d = p ->
    (In (DNoteOff (d_ops d) (d_num d) p) o /\ exists d', dev_at s' i d' /\ d_on d' = false) \/
    (exists k d', In k (keys (m_np m)) /\ k <> p /\ dev_at s' i d' /\
       (d_glide d' = k \/ d_pitch d' = k /\ exists pp cc, In (DNoteOn (d_ops d) (d_num d) pp cc (m_vel m)) o)).
Proof. exact c30_stops. Qed.
Print Assumptions C30_voice_released.

Theorem C30_refuted :
  ~ (forall ops s o c p s' o', boots_to ops s o -> is_chan c -> seven p ->
       steps s (MNoteOff c p) s' o' -> ~ sounds s' c p).
Proof. exact c30_refuted. Qed.
Print Assumptions C30_refuted.

Example C30_nonvacuous : exists s o s' o',
  boots_to [MNoteOn 0 60 100; MNoteOn 7 64 100] s o /\ soundsb s 7 64 && soundsb s 0 60 = true /\
  steps s (MNoteOff 7 64) s' o' /\ callb (DNoteOff VPsg 1 64) o' && soundsb s' 0 60 && negb (soundsb s' 7 64) = true.
Proof. apply ran_then. vm_compute. reflexivity. Qed.

(** C32 *)
Theorem C32_velocity_zero_message :
  forall (s : midi) (c p : Z), midi_step (MNoteOn c p 0) s = midi_step (MNoteOff c p) s.
Proof. exact c32_step. Qed.
Print Assumptions C32_velocity_zero_message.

Theorem C32_velocity_zero_history :
  forall (ops : list mop) (s : midi), midi_run (map no_zero_velocity ops) s = midi_run ops s.
Proof. exact MidiNoteProofs.run_no_zero. Qed.
Print Assumptions C32_velocity_zero_history.

Example C32_nonvacuous : exists s o s' o',
  boots_to [MNoteOn 2 60 100] s o /\ soundsb s 2 60 = true /\
  steps s (MNoteOn 2 60 0) s' o' /\ callb (DNoteOff VFm 2 60) o' && negb (soundsb s' 2 60) = true.
Proof. apply ran_then. vm_compute. reflexivity. Qed.

(** C33.  Proved: nothing on the channel sounds, every voice serving it is told to
    stop, no other voice is touched.  Not provable: that remembered keys are forgotten. *)
Theorem C33_all_notes_off_partial :
  forall (s s' : midi) (o : list dcall) (c k v : Z), k = 123 \/ k = 120 -> steps s (MCc c k v) s' o ->
    (forall p, ~ sounds s' c p) /\
    (forall i d, serves s c i d -> In (DAllOff (d_ops d) (d_num d)) o) /\
    (forall i d, dev_at s i d -> d_midi d <> c -> dev_at s' i d) /\
    (forall x w, In x o -> call_voice x = Some w -> exists i d, serves s c i d /\ w = (d_ops d, d_num d)).
Proof. exact c33. Qed.
Print Assumptions C33_all_notes_off_partial.

(** Hold 60, All Notes Off, press and release 64: 60 sounds again. *)
Theorem C33_refuted :
  ~ (forall ops s o c v s1 o1 p w s2 o2, boots_to ops s o -> is_chan c -> seven p -> 1 <= w <= 127 ->
       steps s (MCc c 123 v) s1 o1 -> midi_run [MNoteOn c p w; MNoteOff c p] s1 = WDone s2 o2 ->
       forall q, ~ sounds s2 c q).
Proof. exact c33_refuted. Qed.
Print Assumptions C33_refuted.

Example C33_nonvacuous : exists s o s' o',
  boots_to [MNoteOn 2 60 100; MNoteOn 8 70 100] s o /\ soundsb s 2 60 && soundsb s 8 70 = true /\
  steps s (MCc 2 120 0) s' o' /\ callb (DAllOff VFm 2) o' && soundsb s' 8 70 && negb (soundsb s' 2 60) = true.
Proof. apply ran_then. vm_compute. reflexivity. Qed.

(** C34.  Never steals: every mode, every state. *)
Theorem C34_never_steals :
  forall (c p v : Z) (s s' : midi) (o : list dcall) (i : Z) (d : dev),
    midi_ok s -> is_chan c -> seven p -> 1 <= v <= 127 -> steps s (MNoteOn c p v) s' o ->
    dev_at s i d -> d_on d = true -> d_midi d <> c ->
    dev_at s' i d /\ forall x, In x o -> call_voice x <> Some (d_ops d, d_num d).
Proof. exact c34_steals. Qed.
Print Assumptions C34_never_steals.

(** Work-conserving, when "stick to device type" and portamento are off. *)
Theorem C34_placed_partial :
  forall (c p v : Z) (s s' : midi) (o : list dcall) (m : mchan) (i0 : Z) (d0 : dev),
    midi_ok s -> is_chan c -> seven p -> 1 <= v <= 127 -> ch_at s c m -> steps s (MNoteOn c p v) s' o ->
    md_dyn s = true -> md_stick s = false -> m_porta m = false -> (length (keys (m_np m)) < 10)%nat ->
    (c = 9 -> (percussion_notes s < 2)%nat) -> candidate s m c i0 d0 ->
    exists i d d' pp cc, dev_at s i d /\ d_on d = false /\ serves s' c i d' /\ d_on d' = true /\ d_pitch d' = p /\
      last o (DChange 0 0 0 0) = DNoteOn (d_ops d) (d_num d) pp cc v.
Proof. exact c34_placed. Qed.
Print Assumptions C34_placed_partial.

(** With "stick to device type" a note is dropped although a suitable voice is free. *)
Theorem C34_refuted :
  ~ (forall ops s o c p v m i d s' o',
       boots_to ops s o -> md_dyn s = true -> is_chan c -> seven p -> 1 <= v <= 127 -> ch_at s c m -> m_porta m = false ->
       keys (m_np m) = [] -> (c = 9 -> (percussion_notes s < 2)%nat) -> candidate s m c i d -> steps s (MNoteOn c p v) s' o' ->
       sounds s' c p).
Proof. exact c34_refuted. Qed.
Print Assumptions C34_refuted.

Example C34_nonvacuous : exists s o s' o',
  boots_to [own_sysex 3 [1]; MNoteOn 0 60 100; MNoteOn 1 61 100; MNoteOn 1 65 100] s o /\
  md_dyn s && soundsb s 0 60 && soundsb s 1 61 && soundsb s 1 65 = true /\
  steps s (MNoteOn 3 62 99) s' o' /\ soundsb s' 3 62 && soundsb s' 0 60 && soundsb s' 1 61 && soundsb s' 1 65 &&
  callb (DNoteOn VFm 3 62 0 99) o' = true.
Proof. apply ran_then. vm_compute. reflexivity. Qed.

(** C35 *)
Theorem C35_percussion_not_on_psg :
  forall (p v : Z) (s s' : midi) (o : list dcall) (n pp cc ve : Z),
    midi_ok s -> seven p -> 1 <= v <= 127 -> md_dyn s = true -> steps s (MNoteOn 9 p v) s' o ->
    ~ In (DNoteOn VPsg n pp cc ve) o /\
    (forall i d d', dev_at s i d -> dev_at s' i d' -> d_on d = false -> d_on d' = true -> d_ops d' <> VPsg).
Proof. exact c35_not_psg. Qed.
Print Assumptions C35_percussion_not_on_psg.

Theorem C35_percussion_limit :
  forall (ops : list mop) (s : midi) (o : list dcall),
    Forall (fun op => ~ is_sysex_cmd 0 op) ops -> boots_to ops s o -> (percussion_notes s <= 2)%nat.
Proof. exact MidiMapProofs.percussion_limit. Qed.
Print Assumptions C35_percussion_limit.

Example C35_nonvacuous : exists s o s' o',
  boots_to [own_sysex 3 [1]; MNoteOn 9 40 100; MNoteOn 9 50 100] s o /\ (percussion_notes s =? 2)%nat && md_dyn s = true /\
  steps s (MNoteOn 9 60 100) s' o' /\ (percussion_notes s' =? 2)%nat = true.
Proof. apply ran_then. vm_compute. reflexivity. Qed.

(** C36.  All sound calls go to the channel's own voice.  Missing: the percussion
    flag call is sent to the FM channel with the same number as the PSG voice (below). *)
Theorem C36_static_routing_partial :
  forall (ops : list mop) (s : midi) (o : list dcall) (op : mop) (s' : midi) (o' : list dcall) (c : Z),
    Forall (fun op => ~ remaps op) ops -> boots_to ops s o -> mop_ok op -> note_or_setting c op -> steps s op s' o' ->
    (forall x w, In x o' -> call_voice x = Some w -> static_voice c w) /\
    (forall x, In x o' -> call_voice x = None ->
       (exists n, x = DPerc n (c =? 9) /\ exists w, static_voice c w /\ n = snd w) \/ exists t a b, x = DChange t c a b) /\
    (forall i d, dev_at s i d -> i <> c -> dev_at s' i d) /\
    (forall b m, ch_at s b m -> b <> c -> ch_at s' b m).
Proof. exact c36. Qed.
Print Assumptions C36_static_routing_partial.

(** A note on MIDI channel 10 (PSG noise) marks FM channel 4 as percussive. *)
Theorem C36_refuted :
  ~ (forall ops s o op s' o' c n b, Forall (fun op => ~ remaps op) ops -> boots_to ops s o -> mop_ok op ->
       note_or_setting c op -> steps s op s' o' -> In (DPerc n b) o' -> n = c).
Proof. exact c36_refuted. Qed.
Print Assumptions C36_refuted.

(** A note on an idle channel 1-13 does start its voice. *)
Theorem C36_static_note_plays :
  forall (s : midi) (c p v : Z) (s' : midi) (o : list dcall) (m : mchan) (d : dev),
    midi_ok s -> is_chan c -> seven p -> v <> 0 -> static_map s -> dev_at s c d -> ch_at s c m -> d_on d = false ->
    (length (keys (m_np m)) < 10)%nat -> m_porta m = false -> steps s (MNoteOn c p v) s' o ->
    (exists d', dev_at s' c d' /\ d_on d' = true /\ d_midi d' = c /\ d_pitch d' = p /\ d_glide d' = 0) /\
    exists pp cc, last o (DChange 0 0 0 0) = DNoteOn (d_ops d) (d_num d) pp cc v.
Proof. exact MidiStaticProofs.static_placed. Qed.
Print Assumptions C36_static_note_plays.

Example C36_nonvacuous : exists s o s' o',
  boots_to [MNoteOn 0 60 100; MProgram 7 3; MCc 7 7 90] s o /\ soundsb s 0 60 = true /\
  steps s (MNoteOn 7 64 100) s' o' /\ callb (DNoteOn VPsg 1 64 0 100) o' && soundsb s' 0 60 && soundsb s' 7 64 = true.
Proof. apply ran_then. vm_compute. reflexivity. Qed.

(** C37: every message, including data bytes of 128 and more. *)
Theorem C37_mapping_valid :
  forall (ops : list mop) (s : midi) (o : list dcall),
    Forall mop_bytes ops -> midi_boot ops = WDone s o ->
    length (md_dev s) = 13%nat /\ forall i d, dev_at s i d -> valid_map (d_midi d).
Proof. exact MidiTableProofs.boot_maps. Qed.
Print Assumptions C37_mapping_valid.

Theorem C37_bad_remap_ignored :
  forall (a b : Z) (s : midi), byte a -> byte b -> ~ (valid_map a /\ (0 <= b < 13 \/ b = 127)) ->
    steps s (own_sysex 0 [a; b]) s [].
Proof. exact MidiTableProofs.bad_remap. Qed.
Print Assumptions C37_bad_remap_ignored.

Theorem C37_good_remap_done :
  forall (a b : Z) (s : midi), length (md_dev s) = 13%nat -> valid_map a -> 0 <= b < 13 ->
    exists d, dev_at s b d /\ steps s (own_sysex 0 [a; b]) (md_set_dev s (zset (md_dev s) b (d_set_midi d a))) [].
Proof. exact MidiTableProofs.good_remap. Qed.
Print Assumptions C37_good_remap_done.

Example C37_nonvacuous : exists s o s' o',
  boots_to [own_sysex 0 [14; 3]; own_sysex 0 [16; 4]] s o /\ devb s 3 (fun d => d_midi d =? 14) && devb s 4 (fun d => d_midi d =? 4) = true /\
  steps s (own_sysex 0 [127; 3]) s' o' /\ devb s' 3 (fun d => d_midi d =? 127) = true.
Proof. apply ran_then. vm_compute. reflexivity. Qed.

(** C38: the stored settings, for every channel message. *)
Theorem C38_other_settings :
  forall (op : mop) (s s' : midi) (o : list dcall) (a : Z),
    midi_ok s -> mop_ok op -> on_channel op = Some a -> steps s op s' o ->
    forall b m, ch_at s b m -> b <> a -> ch_at s' b m.
Proof. exact MidiChanProofs.other_settings. Qed.
Print Assumptions C38_other_settings.

(** The device channels.  Missing: the three controllers of [reassigning], and the chip
    channel of FM parameter controllers sent to a PSG or special mode voice (below). *)
Theorem C38_other_devices_partial :
  forall (op : mop) (s s' : midi) (o : list dcall) (a : Z),
    midi_ok s -> mop_ok op -> on_channel op = Some a -> ~ reassigning op -> steps s op s' o ->
    (forall i d, dev_at s i d -> d_midi d <> a -> d_on d = true \/ ~ is_note_on op -> dev_at s' i d) /\
    Forall (reaches s op a) o.
Proof. exact MidiChanProofs.other_devices. Qed.
Print Assumptions C38_other_devices_partial.

(** The algorithm controller on MIDI channel 7 (PSG tone 1) changes FM channel 1. *)
Theorem C38_refuted :
  ~ (forall ops s o op s' o' a x n d, boots_to ops s o -> mop_ok op -> on_channel op = Some a ->
       steps s op s' o' -> In (DSynth x) o' -> SynthSpec.sop_chan x = Some n -> dev_at s n d -> d_midi d = a).
Proof. exact c38_refuted. Qed.
Print Assumptions C38_refuted.

Example C38_nonvacuous : exists s o s' o',
  boots_to [MNoteOn 0 60 100; MCc 0 7 80; MNoteOn 1 64 100] s o /\ soundsb s 0 60 && soundsb s 1 64 = true /\
  steps s (MCc 1 7 20) s' o' /\ devb s' 1 (fun d => d_vol d =? 20) && devb s' 0 (fun d => d_vol d =? 80) &&
  chb s' 0 (fun m => m_vol m =? 80) = true.
Proof. apply ran_then. vm_compute. reflexivity. Qed.

(** C39: what the channel remembers is what was last sent to it. *)
Theorem C39_settings_stored :
  forall (ops : list mop) (s : midi) (o : list dcall) (c : Z) (m : mchan), boots_to ops s o -> ch_at s c m ->
    m_vol m = st_vol (settings ops c) /\ m_pan m = st_pan (settings ops c) /\ m_prog m = st_prog (settings ops c) /\
    m_bend m = st_bend (settings ops c).
Proof. exact c39_stored. Qed.
Print Assumptions C39_settings_stored.

Theorem C39_volume_reaches :
  forall (s s' : midi) (o : list dcall) (c v : Z), midi_ok s -> is_chan c -> seven v -> steps s (MCc c 7 v) s' o ->
    forall i d, serves s c i d ->
      (exists d', serves s' c i d' /\ d_vol d' = v) /\ (d_vol d = v \/ In (DVolume (d_ops d) (d_num d) v) o).
Proof. exact MidiCarryProofs.volume_reaches. Qed.
Print Assumptions C39_volume_reaches.

Theorem C39_pan_reaches :
  forall (s s' : midi) (o : list dcall) (c v : Z), midi_ok s -> is_chan c -> seven v -> steps s (MCc c 10 v) s' o ->
    forall i d, serves s c i d ->
      (exists d', serves s' c i d' /\ d_pan d' = v) /\ (d_pan d = v \/ In (DPan (d_ops d) (d_num d) v) o).
Proof. exact MidiCarryProofs.pan_reaches. Qed.
Print Assumptions C39_pan_reaches.

Theorem C39_program_reaches :
  forall (s s' : midi) (o : list dcall) (c v : Z), midi_ok s -> is_chan c -> seven v -> steps s (MProgram c v) s' o ->
    forall i d, serves s c i d ->
      (exists d', serves s' c i d' /\ d_prog d' = v) /\ (d_prog d = v \/ In (DProgram (d_ops d) (d_num d) v) o).
Proof. exact MidiCarryProofs.program_reaches. Qed.
Print Assumptions C39_program_reaches.

(** The settings are sent to a newly assigned voice before its note starts. *)
Theorem C39_note_on_synced :
  forall (s s' : midi) (o : list dcall) (c p v n pi ce : Z) (w : vtable) (ve : Z) (pre post : list dcall) (m : mchan),
    midi_ok s -> is_chan c -> seven p -> v <> 0 -> steps s (MNoteOn c p v) s' o -> ch_at s c m ->
    o = pre ++ DNoteOn w n pi ce ve :: post ->
    exists i d d', dev_at s i d /\ serves s' c i d' /\ w = d_ops d /\ n = d_num d /\ ve = v /\ d_on d' = true /\
      carries m d' /\
      (d_vol d = m_vol m \/ In (DVolume w n (m_vol m)) pre) /\
      (d_pan d = m_pan m \/ In (DPan w n (m_pan m)) pre) /\ (d_prog d = m_prog m \/ In (DProgram w n (m_prog m)) pre).
Proof. exact MidiCarryProofs.note_on_synced. Qed.
Print Assumptions C39_note_on_synced.

(** At any time, a sounding voice carries its channel's settings (no re-assignment). *)
Theorem C39_sounding_settings :
  forall (ops : list mop) (s : midi) (o : list dcall) (i : Z) (d : dev),
    Forall (fun op => ~ remapping op) ops -> boots_to ops s o -> dev_at s i d -> d_on d = true -> is_chan (d_midi d) ->
    let t := settings ops (d_midi d) in
    d_vol d = st_vol t /\ d_pan d = st_pan t /\ d_prog d = st_prog t /\ d_bend d = st_bend t.
Proof. exact MidiCarryProofs.sounding_settings. Qed.
Print Assumptions C39_sounding_settings.

Example C39_nonvacuous : exists s o s' o',
  boots_to [MNoteOn 0 60 100; MCc 3 7 80; MCc 3 10 20; MProgram 3 9] s o /\ chb s 3 (fun m => m_vol m =? 80) = true /\
  steps s (MNoteOn 3 62 99) s' o' /\
  devb s' 3 (fun d => d_on d && (d_vol d =? 80) && (d_pan d =? 20) && (d_prog d =? 9)) = true.
Proof. apply ran_then. vm_compute. reflexivity. Qed.

(** C40.  The bend range is the one selected through registered parameter 0; missing:
    non-registered parameters, whose selection the code ignores (below). *)
Theorem C40_bend_range_partial :
  forall (ops : list mop) (s : midi) (o : list dcall) (c : Z) (m : mchan), boots_to ops s o -> ch_at s c m ->
    pc_pitch (m_range m) = st_semis (settings ops c) /\ pc_cents (m_range m) = st_cents (settings ops c).
Proof. exact c40. Qed.
Print Assumptions C40_bend_range_partial.

(** Data Entry for a non-registered parameter still changes the bend range. *)
Theorem C40_refuted :
  ~ (forall ops s o c a b v s' o' m m', boots_to ops s o -> is_chan c -> seven a -> seven b -> seven v ->
       midi_run [MCc c 99 a; MCc c 98 b; MCc c 6 v] s = WDone s' o' -> ch_at s c m -> ch_at s' c m' ->
       pc_pitch (m_range m') = pc_pitch (m_range m)).
Proof. exact c40_refuted. Qed.
Print Assumptions C40_refuted.

Example C40_nonvacuous :
  let ops := [MCc 4 6 5; MCc 4 101 0; MCc 4 100 0; MCc 4 6 12; MCc 4 38 50; MCc 4 101 127; MCc 4 100 127; MCc 4 6 7] in
  (st_semis (settings ops 4), st_cents (settings ops 4), st_semis (settings ops 3)) = (12, 50, 2) /\
  exists s o, boots_to ops s o /\ chb s 4 (fun m => (pc_pitch (m_range m) =? 12) && (pc_cents (m_range m) =? 50)) = true.
Proof. split; [reflexivity|]. apply ran. vm_compute. reflexivity. Qed.

(** C41.  [k] frames: between start and target, never beyond, the exact distance left, and at
    the target once the distance is covered.  Missing: targets within one frame's step of key 0. *)
Theorem C41_glide_partial :
  forall (s : midi) (i : Z) (d : dev) (m : mchan) (k : nat),
    midi_ok s -> gliding s i d m -> reachable_target m d ->
    exists s' o d', midi_run (repeat MTick k) s = WDone s' o /\ dev_at s' i d' /\ d_on d' = true /\ d_midi d' = d_midi d /\
      let G := 100 * d_glide d in
      (position d <= position d' <= G \/ G <= position d' <= position d) /\
      (Z.abs (position d - G) <= Z.of_nat k * m_int m -> position d' = G /\ d_pitch d' = d_glide d /\ d_cents d' = 0) /\
      (position d' <> G -> Z.abs (position d' - G) = Z.abs (position d - G) - Z.of_nat k * m_int m).
Proof. exact MidiGlideProofs.glide_frames. Qed.
Print Assumptions C41_glide_partial.

(** Each frame tells the sound layer the new position (bend and fine tuning centred). *)
Theorem C41_frame_sounds :
  forall (s : midi) (i : Z) (d : dev) (m : mchan) (s' : midi) (o : list dcall),
    midi_ok s -> gliding s i d m -> position d <> 100 * d_glide d -> d_bend d = 8192 -> m_fine m = 0 ->
    steps s MTick s' o ->
    exists d', dev_at s' i d' /\ In (DPitch (d_ops d) (d_num d) (d_pitch d') (d_cents d')) o.
Proof. exact MidiGlideProofs.frame_tells. Qed.
Print Assumptions C41_frame_sounds.

(** Gliding from key 5 to key 1 at the fastest time jumps above key 130. *)
Theorem C41_refuted :
  ~ (forall ops s o i d m s' o' d', boots_to ops s o -> gliding s i d m -> steps s MTick s' o' ->
       dev_at s' i d' -> Z.abs (position d' - 100 * d_glide d) <= Z.abs (position d - 100 * d_glide d)).
Proof. exact c41_refuted. Qed.
Print Assumptions C41_refuted.

Example C41_nonvacuous : exists s o s' o',
  boots_to [MCc 0 65 127; MCc 0 5 40; MNoteOn 0 60 100; MNoteOn 0 72 100] s o /\
  devb s 0 (fun d => (d_glide d =? 72) && (position d =? 6000) && d_on d) && chb s 0 (fun m => m_porta m && (m_int m =? 155)) = true /\
  steps s MTick s' o' /\ devb s' 0 (fun d => position d =? 6155) && callb (DPitch VFm 0 61 55) o' = true.
Proof. apply ran_then. vm_compute. reflexivity. Qed.

(** C42.  A sounding voice always plays a key that is still held, so when every key has been
    released nothing sounds.  Missing: histories with the portamento switch or re-assignment. *)
Theorem C42_no_hung_notes_partial :
  forall (ops : list mop) (s : midi) (o : list dcall), Forall plain_op ops -> boots_to ops s o ->
    forall i d, dev_at s i d -> d_on d = true -> In (d_midi d, note_of d) (held ops).
Proof. exact MidiHistProofs.no_hung_notes. Qed.
Print Assumptions C42_no_hung_notes_partial.

Theorem C42_all_released_partial :
  forall (ops : list mop) (s : midi) (o : list dcall), Forall plain_op ops -> boots_to ops s o -> held ops = [] ->
    forall i d, dev_at s i d -> d_on d = false.
Proof. exact c42_released. Qed.
Print Assumptions C42_all_released_partial.

(** Portamento switched off during a glide leaves the note stuck. *)
Theorem C42_refuted :
  ~ (forall ops s o i d, Forall (fun op => ~ remapping op) ops -> boots_to ops s o -> held ops = [] ->
       dev_at s i d -> d_on d = false).
Proof. exact c42_refuted. Qed.
Print Assumptions C42_refuted.

(** So does changing to polyphonic mode while a note sounds. *)
Theorem C42_mode_refuted :
  ~ (forall ops s o i d, Forall (fun op => ~ is_cc 65 op) ops -> boots_to ops s o -> held ops = [] ->
       dev_at s i d -> d_on d = false).
Proof. exact c42_refuted_mode. Qed.
Print Assumptions C42_mode_refuted.

Example C42_nonvacuous : exists s o s' o',
  boots_to [MNoteOn 0 60 100; MNoteOn 0 64 100; MBend 0 100; MNoteOff 0 60] s o /\ soundsb s 0 64 = true /\
  steps s (MNoteOff 0 64) s' o' /\ forallb (fun d => negb (d_on d)) (md_dev s') = true.
Proof. apply ran_then. vm_compute. reflexivity. Qed.

(** C43.  Every byte string, every state, apart from messages that begin with the
    General MIDI header. *)
Theorem C43_ill_formed_ignored_partial :
  forall (data : list Z) (s : midi), ill_formed data -> steps s (MSysex data) s [].
Proof. exact MidiSysexProofs.ill_formed_ignored. Qed.
Print Assumptions C43_ill_formed_ignored_partial.

(** A General MIDI system-on message with bytes appended is still obeyed. *)
Theorem C43_refuted :
  ~ (forall ops s o data s' o', boots_to ops s o -> Forall seven data ->
       (length data <> 4)%nat -> ~ starts_with own_header data -> steps s (MSysex data) s' o' -> s' = s /\ o' = []).
Proof. exact c43_refuted. Qed.
Print Assumptions C43_refuted.

Example C43_nonvacuous : ill_formed [0x00; 0x22; 0x77; 0x00; 5] /\ ill_formed [0x41; 0x10; 0x42; 0x12; 0x40] /\
  ~ ill_formed [0x00; 0x22; 0x77; 0x00; 5; 6].
Proof.
  split; [right; right; exists 0, [5]; split; [reflexivity|]; right; exists 2%nat; split; [reflexivity|discriminate]|].
  split; [right; left; split; intros (t & H); discriminate H|].
  intros [H|[[_ H]|(cmd & args & H & K)]]; [cbn in H; lia|apply H; exists [0x00; 5; 6]; reflexivity|].
  injection H as <- <-. destruct K as [K|(n & K & L)]; [discriminate K|injection K as <-; apply L; reflexivity].
Qed.

(** C44.  Exactly one reply and nothing else changes; the payload is echoed when it has
    at most one byte (longer payloads lose bytes, below). *)
Theorem C44_pong_partial :
  forall (s : midi) (payload : list Z), Forall seven payload ->
    exists reply, steps s (own_sysex 1 payload) s [DTx (own_header ++ 2 :: reply)] /\ Forall seven reply /\
      ((length payload <= 1)%nat -> reply = payload) /\
      (payload <> [] -> hd_error reply = hd_error payload).
Proof. exact c44. Qed.
Print Assumptions C44_pong_partial.

Theorem C44_refuted :
  ~ (forall s payload, Forall seven payload -> steps s (own_sysex 1 payload) s [DTx (own_header ++ 2 :: payload)]).
Proof. exact c44_refuted. Qed.
Print Assumptions C44_refuted.

Example C44_nonvacuous : exists s o s' o',
  boots_to [MNoteOn 0 60 100] s o /\ soundsb s 0 60 = true /\
  steps s (own_sysex 1 [9]) s' o' /\ callb (DTx [0x00; 0x22; 0x77; 0x02; 9]) o' && soundsb s' 0 60 = true.
Proof. apply ran_then. vm_compute. reflexivity. Qed.

(** C46.  Missing: controllers 80, 84 and 87 (below). *)
Theorem C46_disabled_partial :
  forall (s s' : midi) (o : list dcall) (c k v : Z),
    midi_ok s -> is_chan c -> seven v -> covered_cc k -> md_nogm s = true -> steps s (MCc c k v) s' o ->
    s' = s /\ o = if md_cb s then [DChange 2 c k v] else [].
Proof. exact MidiSysexProofs.covered_disabled. Qed.
Print Assumptions C46_disabled_partial.

Theorem C46_refuted :
  forall k : Z, k = 80 \/ k = 84 \/ k = 87 ->
  ~ (forall ops s o c v s' o', boots_to ops s o -> md_nogm s = true -> is_chan c -> seven v ->
       steps s (MCc c k v) s' o' -> s' = s /\ o' = []).
Proof. exact c46_refuted. Qed.
Print Assumptions C46_refuted.

Example C46_nonvacuous : exists s o s' o',
  boots_to [own_sysex 4 [0]] s o /\ md_nogm s = true /\
  steps s (MCc 0 14 127) s' o' /\ match o' with [] => true | _ => false end = true.
Proof. apply (ran_then [own_sysex 4 [0]] (MCc 0 14 127) md_nogm (fun _ o' => match o' with [] => true | _ => false end)). vm_compute. reflexivity. Qed.

(** C47: every FM controller except total level (next) and sustain rate (refuted):
    one monotone map of 0..127 onto the field, sent to every voice of the channel. *)
Theorem C47_controller_range_partial :
  forall k : Z, is_fm_controller k -> ~ 16 <= k < 20 -> ~ 51 <= k < 55 ->
  exists f : Z -> Z,
    (forall v, seven v -> 0 <= f v <= field_max k) /\ f 0 = 0 /\ f 127 = field_max k /\
    (forall v w, seven v -> seven w -> v <= w -> f v <= f w) /\
    forall s s' o c v, midi_ok s -> is_chan c -> seven v -> md_nogm s = false -> steps s (MCc c k v) s' o ->
      s' = s /\
      (forall i d, serves s c i d -> exists op, fm_controls k (d_num d) (f v) = Some op /\ In (DSynth op) o) /\
      (forall op, In (DSynth op) o -> exists i d, serves s c i d /\ fm_controls k (d_num d) (f v) = Some op).
Proof. exact c47. Qed.
Print Assumptions C47_controller_range_partial.

Theorem C47_total_level :
  forall k : Z, 16 <= k < 20 ->
    forall s s' o c v, midi_ok s -> is_chan c -> seven v -> md_nogm s = false -> steps s (MCc c k v) s' o ->
      let x := if md_inv s then 127 - v else v in
      s' = s /\
      (forall i d, serves s c i d -> In (DSynth (STotalLevel (d_num d) (k - 16) x)) o) /\
      (forall op, In (DSynth op) o -> exists i d, serves s c i d /\ op = STotalLevel (d_num d) (k - 16) x).
Proof. exact c47_level. Qed.
Print Assumptions C47_total_level.

(** The sustain rate field holds 0..31; value 127 sets it to 15. *)
Theorem C47_refuted :
  ~ (forall ops s o c k s' o' n q x, 51 <= k < 55 -> boots_to ops s o -> md_nogm s = false -> is_chan c ->
       steps s (MCc c k 127) s' o' -> In (DSynth (SSustainRate n q x)) o' -> x = field_max k).
Proof. exact c47_refuted. Qed.
Print Assumptions C47_refuted.

Example C47_nonvacuous : is_fm_controller 44 /\ exists s o s' o',
  boots_to [] s o /\ negb (md_nogm s) = true /\
  steps s (MCc 2 44 127) s' o' /\ callb (DSynth (SAttackRate 2 1 31)) o' = true.
Proof. split; [discriminate|]. apply (ran_then [] (MCc 2 44 127) (fun s => negb (md_nogm s)) (fun _ o' => callb (DSynth (SAttackRate 2 1 31)) o')). vm_compute. reflexivity. Qed.

(** C48 for the MIDI layer: every well-formed history runs to the end, unless it contains an
    envelope upload with an odd number of nibbles, and makes only legal calls. *)
Theorem C48_midi_layer_partial :
  forall ops : list mop, Forall mop_ok ops -> ~ Exists odd_envelope ops ->
    exists s o, midi_boot ops = WDone s o /\ midi_ok s /\ Forall dcall_ok o.
Proof. exact c48_midi. Qed.
Print Assumptions C48_midi_layer_partial.

Theorem C48_midi_only_fault :
  forall (ops : list mop) (f : fault), Forall mop_ok ops -> midi_boot ops = WFault f -> f = F_uninit /\ Exists odd_envelope ops.
Proof. exact c48_fault. Qed.
Print Assumptions C48_midi_only_fault.

(** An odd envelope upload reads a byte that was never received. *)
Theorem C48_refuted : ~ (forall ops, Forall mop_ok ops -> exists s o, midi_boot ops = WDone s o).
Proof. exact c48_refuted. Qed.
Print Assumptions C48_refuted.

Example C48_nonvacuous : exists s o,
  boots_to [MNoteOn 0 127 127; MBend 0 16383; MCc 0 6 127; own_sysex 6 [0; 15; 4; 1]; MTick; MReset] s o /\
  Nat.ltb 20 (length o) = true.
Proof. apply (ran _ (fun _ o => Nat.ltb 20 (length o))). vm_compute. reflexivity. Qed.

(** C63.  In the static mapping; in dynamic mode it is false. *)
Theorem C63_static_partial :
  forall (s s' : midi) (o : list dcall) (a v : Z),
    midi_ok s -> is_chan a -> seven v -> static_map s -> steps s (MCc a 121 v) s' o ->
    (forall b m, ch_at s b m -> b <> a -> ch_at s' b m) /\
    (forall i d, dev_at s i d -> i <> a -> dev_at s' i d) /\ ch_at s' a (init_midi_channel a).
Proof. exact MidiChanProofs.reset_controllers_static. Qed.
Print Assumptions C63_static_partial.

(** In dynamic mode another channel's sounding voice loses its assignment. *)
Theorem C63_refuted :
  ~ (forall ops s o a v s' o' i d, boots_to ops s o -> is_chan a -> seven v ->
       steps s (MCc a 121 v) s' o' -> dev_at s i d -> d_on d = true -> d_midi d <> a ->
       exists d', dev_at s' i d' /\ d_midi d' = d_midi d).
Proof. exact c63_refuted. Qed.
Print Assumptions C63_refuted.

Example C63_nonvacuous : exists s o s' o',
  boots_to [MCc 0 7 50; MCc 1 7 60; MNoteOn 0 60 100] s o /\ chb s 1 (fun m => m_vol m =? 60) = true /\
  steps s (MCc 1 121 0) s' o' /\ chb s' 1 (fun m => m_vol m =? 127) && chb s' 0 (fun m => m_vol m =? 50) && soundsb s' 0 60 = true.
Proof. apply ran_then. vm_compute. reflexivity. Qed.
