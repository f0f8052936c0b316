(** Chords in dynamic mode, at the chip. *)
From Verif Require Import Base MidiModel MidiSpec SynthSpec SoundSpec DevModel DevSpec AppModel AppSpec AppExampleProofs ChordSpec ChordRunProofs ChordDrumProofs ChordExampleProofs.

(** ** C111: in dynamic mode every held key has a voice of its own, at its own pitch *)
(** Only part of the statement holds, see the refutation below.  The mode is asked for
    first; then follows anything [chords] allows.  At the end there is a voice for every
    held key, no two share one, an FM channel is keyed on exactly when it is the voice of
    a held key, and its frequency is that of the key, bent as its channel is now.  Drums are on FM
    channels; for their pitch see C111_song_partial.
    Missing: portamento (C111_portamento_refuted), a key pressed again while it is held,
    a third drum, other controllers, and the pitch of the keys whose voice is on the PSG. *)
Theorem C111_chord_partial : forall r hw mem start play,
  rom_ok r -> mem_ok mem -> Forall aop_ok (AMsg start :: play) -> asks_dynamic start -> chords start play ->
  let ms := start :: map message play in
  exists s tr voice, history r hw mem (AMsg start :: play) s tr /\
    (forall x, In x (held ms) -> 0 <= voice x < 10) /\
    (forall x y, In x (held ms) -> In y (held ms) -> voice x = voice y -> x = y) /\
    (forall n, 0 <= n < 6 -> (exists x, In x (held ms) /\ voice x = n) /\ key_state tr n = Some true \/
                             ~ (exists x, In x (held ms) /\ voice x = n) /\ key_state tr n = Some false) /\
    (forall c k, In (c, k) (held ms) -> c <> 9 -> voice (c, k) < 6 -> let x := pitched ms c k in 0 <= bent ms c k < 25600 -> 0 <= x < 25600 ->
       chip_freq tr (voice (c, k)) = Some (fm_note r (x / 100) (x mod 100))) /\
    ((fm_only start play -> forall x, In x (held ms) -> voice x < 6) /\ forall k, In (9, k) (held ms) -> voice (9, k) < 6).
Proof. exact chord_heard. Qed.
Print Assumptions C111_chord_partial.

(** After a General MIDI reset the voice of a key also has the instrument its channel
    selects now, at the side of the channel, and the level of its volume and of the
    velocity the key was struck with; on FM channel 3 only while no operator of special
    mode was played.  A drum sounds as the instrument and at the key of the drum, as long
    as programs and bends of channel 10 come while no drum is held. *)
Theorem C111_song_partial : forall r hw mem start play,
  rom_ok r -> mem_ok mem -> Forall aop_ok (AMsg start :: play) -> gm_reset_msg start -> chords start play ->
  let ms := start :: map message play in
  exists s tr voice, history r hw mem (AMsg start :: play) s tr /\
    (forall x, In x (held ms) -> 0 <= voice x < 10) /\
    (forall x y, In x (held ms) -> In y (held ms) -> voice x = voice y -> x = y) /\
    (forall n, 0 <= n < 6 -> (exists x, In x (held ms) /\ voice x = n) /\ key_state tr n = Some true \/
                             ~ (exists x, In x (held ms) /\ voice x = n) /\ key_state tr n = Some false) /\
    ((fm_only start play -> forall x, In x (held ms) -> voice x < 6) /\ forall k, In (9, k) (held ms) -> voice (9, k) < 6) /\
    (forall c k, In (c, k) (held ms) -> c <> 9 -> voice (c, k) < 6 -> let n := voice (c, k) in let t := settings ms c in
      let p := nth (Z.to_nat (st_prog t)) (rom_presets r) no_preset in let x := pitched ms c k in
      (0 <= bent ms c k < 25600 -> 0 <= x < 25600 -> chip_freq tr n = Some (fm_note r (x / 100) (x mod 100))) /\
      plays_preset (ym_regs tr) n p /\ chip_st (ym_regs tr) n = Some (pan_side (st_pan t)) /\
      (n <> 2 \/ without sm_note play -> plays_level (ym_regs tr) n p (loudness (st_vol t) (struck ms (c, k))))) /\
    (steady_drums start play -> forall k, In (9, k) (held ms) -> let n := voice (9, k) in let t := settings ms 9 in let x := pitched ms 9 k in
      let p := fst (drum r (x / 100)) in 0 <= bent ms 9 k < 25600 -> 0 <= x < 25600 ->
      chip_freq tr n = Some (fm_note r (snd (drum r (x / 100))) (x mod 100)) /\
      plays_preset (ym_regs tr) n p /\ chip_st (ym_regs tr) n = Some (pan_side (st_pan t)) /\
      (n <> 2 \/ without sm_note play -> plays_level (ym_regs tr) n p (loudness (st_vol t) (struck ms (9, k))))).
Proof. exact chord_song_drums. Qed.
Print Assumptions C111_song_partial.
Example C111_song_nonvacuous : Forall aop_ok (AMsg gm :: triad) /\ gm_reset_msg gm /\ chords gm triad /\ without sm_note triad /\ steady_drums gm triad /\
  let ms := gm :: map message triad in held ms = [(0, 65); (9, 42); (0, 67); (1, 40); (0, 60)] /\ map (struck ms) (held ms) = [80; 70; 100; 90; 100] /\
  bent ms 9 42 = 4200 /\ pitched ms 9 42 = 4200 /\ snd (drum (shipped false) 42) = 70.
Proof. exact gm_example. Qed.

(** The hypotheses hold of a triad that is bent, loses a key and gets another over a
    square wave of another channel and drums, and of keys on two channels that select FM. *)
Example C111_nonvacuous : (Forall aop_ok (AMsg on :: triad) /\ asks_dynamic on /\ chords on triad /\
  let ms := on :: map message triad in held ms = [(0, 65); (9, 42); (0, 67); (1, 40); (0, 60)] /\ map (fun k => pitched ms 0 k) [60; 67; 65] = [6019; 6719; 6519]) /\
  Forall aop_ok (AMsg on :: choir) /\ chords on choir /\ fm_only on choir /\ held (on :: map message choir) = [(2, 31); (2, 43); (0, 64)].
Proof. exact (conj triad_example choir_example). Qed.

(** With portamento on, the second key of a chord may be lost: it is held, and no voice
    plays it, although five are free. *)
Theorem C111_portamento_refuted : ~ forall r hw mem start play s tr x y, asks_dynamic start -> Forall aop_ok (AMsg start :: play) -> gliding_chords start play -> fm_only start play ->
  history r hw mem (AMsg start :: play) s tr -> In x (held (start :: map message play)) -> In y (held (start :: map message play)) -> x <> y ->
  exists n m, 0 <= n < 6 /\ 0 <= m < 6 /\ n <> m /\ key_state tr n = Some true /\ key_state tr m = Some true.
Proof. exact gliding_refuted. Qed.
Print Assumptions C111_portamento_refuted.

(** Nor is it silent once all keys are up: the voice the lost key was meant for keeps its
    target, and a key of another channel, without portamento, that gets this voice is
    never released. *)
Theorem C111_silence_refuted : ~ forall r hw mem start play s tr n, asks_dynamic start -> Forall aop_ok (AMsg start :: play) -> gliding_chords start play -> fm_only start play ->
  history r hw mem (AMsg start :: play) s tr -> held (start :: map message play) = [] -> 0 <= n < 6 -> key_state tr n <> Some true.
Proof. exact silence_refuted. Qed.
Print Assumptions C111_silence_refuted.

(** Without that condition a drum does not keep its instrument: a program change for
    channel 10 while it sounds makes it the melodic instrument of that program. *)
Theorem C111_drum_refuted : ~ forall r hw mem start play s tr k, gm_reset_msg start -> Forall aop_ok (AMsg start :: play) -> chords start play ->
  history r hw mem (AMsg start :: play) s tr -> let ms := start :: map message play in In (9, k) (held ms) ->
  exists n, 0 <= n < 6 /\ key_state tr n = Some true /\ plays_preset (ym_regs tr) n (fst (drum r (pitched ms 9 k / 100))).
Proof. exact drum_refuted. Qed.
Print Assumptions C111_drum_refuted.
