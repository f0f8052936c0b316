(** C10 (volume), C12-C16: the YM2612 synthesizer layer. *)
From Verif Require Import Base SynthModel SynthSpec SynthProofs SynthClaimsProofs SynthNotifyProofs.

(** ** C10: the law levels obey, and that the chip gets those levels *)
Theorem C10_level_law : loudness_law expected_level.
Proof. exact c10_law. Qed.
Print Assumptions C10_level_law.

Theorem C10_volume_reaches_chip :
  forall s tr c v, synth_ok s -> is_ch c -> 0 <= v < 128 -> zget (s_vols s) c <> Some v ->
  exists s' o, synth_volume c v s = Done tt s' o /\
    forall oo, is_op oo -> exists ch x, zget (s_chans s) c = Some ch /\ zget (c_ops ch) oo = Some x /\
      chip_tl (ym_regs (tr ++ o)) c oo = Some (expected_level (c_alg ch) v oo (o_tl x)).
Proof. exact c14_volume. Qed.
Print Assumptions C10_volume_reaches_chip.

Example C10_nonvacuous :
  carrier 4 1 /\ ~ carrier 4 0 /\ expected_level 4 64 1 30 = 38 /\ expected_level 4 64 0 20 = 20 /\
  exists s' o, bind (synth_init (demo_preset 4)) (fun _ => synth_volume 5 64) synth0 = Done tt s' o /\
    chip_tl (ym_regs o) 5 1 = Some 38 /\ chip_tl (ym_regs o) 5 0 = Some 20.
Proof.
  split; [cbv; tauto|]. split; [cbv; intuition discriminate|]. split; [reflexivity|]. split; [reflexivity|].
  eexists; eexists; split; [vm_compute; reflexivity|vm_compute; tauto].
Qed.

(** ** C12: encoding *)
(** After a setter, whatever came before, the chip field holds the value (cut
    to the width of the field). *)
Theorem C12_setter_effect :
  forall op s tr rdr v, synth_ok s -> sop_ok op -> set_field op = Some (rdr, v) ->
  exists s' o, synth_step op s = Done tt s' o /\ rdr (ym_regs (tr ++ o)) = Some v.
Proof. exact c12_set_field. Qed.
Print Assumptions C12_setter_effect.

Example C12_setter_effect_nonvacuous :
  set_field (SDetune 4 2 13) = Some (fun r => chip_dt r 4 2, 5) /\ sop_ok (SDetune 4 2 13) /\ synth_ok synth0.
Proof. split; [reflexivity|]. split; [cbn; unfold is_ch, is_op, is_u8; lia|exact SynthMirrorProofs.synth0_ok]. Qed.

Theorem C12_frequency_effect :
  forall s tr c oc f, synth_ok s -> is_ch c -> is_u8 oc -> 0 <= f < 65536 ->
  exists s' o, synth_pitch c oc f s = Done tt s' o /\
    chip_freq (tr ++ o) c = Some (oc mod 8, f mod 2048) /\
    forall c', c' <> c -> chip_freq (tr ++ o) c' = chip_freq tr c'.
Proof. exact c12_pitch. Qed.
Print Assumptions C12_frequency_effect.

Theorem C12_special_frequency_effect :
  forall s tr o oc f, synth_ok s -> 0 <= o < 3 -> 0 <= oc < 8 -> 0 <= f < 2048 ->
  exists out hi lo, synth_special_mode_pitch o oc f s = Done tt s out /\
    ymw out = [(0, fst (special_regs o), hi); (0, snd (special_regs o), lo)] /\
    (hi / 8) mod 8 = oc /\ (hi mod 8) * 256 + lo = f /\ ym_regs (tr ++ out) 0 (fst (special_regs o)) = Some hi /\
    ym_regs (tr ++ out) 0 (snd (special_regs o)) = Some lo.
Proof. exact c12_special. Qed.
Print Assumptions C12_special_frequency_effect.

Theorem C12_key_effect :
  forall (on : bool) s tr c, synth_ok s -> is_ch c ->
  exists o, (if on then synth_note_on c s else synth_note_off c s) = Done tt s o /\
    key_state (tr ++ o) c = Some on /\
    (forall c', is_ch c' -> c' <> c -> key_state (tr ++ o) c' = key_state tr c').
Proof. exact c12_key_on_off. Qed.
Print Assumptions C12_key_effect.

Theorem C12_only_keying_calls_key :
  forall op s tr, synth_ok s -> sop_ok op -> ~ keying op ->
  exists s' o, synth_step op s = Done tt s' o /\ forall c, key_state (tr ++ o) c = key_state tr c.
Proof. exact c12_keys_untouched. Qed.
Print Assumptions C12_only_keying_calls_key.

(** (Re-)initialisation, from any state, keys all six channels off. *)
Theorem C12_init_silences :
  forall s tr p, synth_ok s -> preset_ok p ->
  exists s' o, synth_init p s = Done tt s' o /\ forall c, is_ch c -> key_state (tr ++ o) c = Some false.
Proof. exact c12_init_silent. Qed.
Print Assumptions C12_init_silences.

Example C12_effects_nonvacuous :
  exists s tr, synth_run [SInit (demo_preset 0); SPitch 4 3 700; SNoteOn 4; SDetune 4 2 13] synth0 = Done tt s tr /\
    chip_freq tr 4 = Some (3, 700) /\ key_state tr 4 = Some true /\ key_state tr 3 = Some false /\
    chip_dt (ym_regs tr) 4 2 = Some 5.
Proof. eexists; eexists; split; [vm_compute; reflexivity|vm_compute; tauto]. Qed.

Theorem C12_distinct_registers :
  forall c o g c' o' g',
  is_ch c -> is_ch c' -> is_op o -> is_op o' ->
  In g [0x30;0x40;0x50;0x60;0x70;0x80;0x90] -> In g' [0x30;0x40;0x50;0x60;0x70;0x80;0x90] ->
  (part_of c, oper_reg g c o) = (part_of c', oper_reg g' c' o') -> c = c' /\ o = o' /\ g = g'.
Proof. exact c12_distinct. Qed.
Print Assumptions C12_distinct_registers.

(** A call addressed to a channel (and operator) writes registers of that
    channel (and operator) only. *)
Theorem C12_isolation :
  forall op s c, synth_ok s -> sop_ok op -> sop_chan op = Some c ->
  exists s' o, synth_step op s = Done tt s' o /\
    (forall p r d, In (EvYm p r d) o -> owner r d p = Some c) /\
    (forall x, sop_oper op = Some x -> forall p r d, In (EvYm p r d) o -> owner_op r = Some x).
Proof. exact c12_isolation. Qed.
Print Assumptions C12_isolation.

Example C12_isolation_nonvacuous :
  exists s o, synth_step (SPreset 4 (demo_preset 3)) synth0 = Done tt s o /\ length (ymw o) = 30%nat /\
    owner 0xB1 5 1 = Some 4 /\ owner 0xB1 5 0 = Some 1.
Proof. eexists; eexists; split; [vm_compute; reflexivity|vm_compute; tauto]. Qed.

(** No call with legal arguments, after any history, faults. *)
Theorem C12_total :
  forall ops s, Forall sop_ok ops -> synth_ok s ->
  exists s' o, synth_run ops s = Done tt s' o /\ synth_ok s'.
Proof. exact synth_total. Qed.
Print Assumptions C12_total.

(** ** C13: the reported parameters are those in the chip *)
Theorem C13_parameters_mirrored :
  forall p ops s tr, preset_ok p -> Forall sop_ok ops -> Forall no_raw_clash ops ->
  synth_run (SInit p :: ops) synth0 = Done tt s tr ->
  global_mirrored (ym_regs tr) s /\
  forall c, is_ch c -> exists ch, zget (s_chans s) c = Some ch /\ chan_mirrored (ym_regs tr) c ch.
Proof. exact c13_parameters. Qed.
Print Assumptions C13_parameters_mirrored.

(** Frequency and levels, the two exceptions of [C13_parameters_mirrored].
    Missing for the full property: see the two refutations below. *)
Theorem C13_pitch_mirrored_partial :
  forall p ops s tr, preset_ok p -> Forall sop_ok ops -> Forall no_raw_clash ops ->
  synth_run (SInit p :: ops) synth0 = Done tt s tr ->
  forall c ch, zget (s_chans s) c = Some ch -> is_ch c ->
    (c_oct ch = 0 /\ c_freq ch = 0) \/ chip_freq tr c = Some (c_oct ch, c_freq ch).
Proof. exact c13_pitch. Qed.
Print Assumptions C13_pitch_mirrored_partial.

Theorem C13_levels_mirrored_partial :
  forall p ops s tr, preset_ok p -> Forall sop_ok ops -> Forall no_raw_clash ops -> Forall level_safe ops ->
  synth_run (SInit p :: ops) synth0 = Done tt s tr ->
  forall c o, is_ch c -> is_op o -> exists ch x v,
    zget (s_chans s) c = Some ch /\ zget (c_ops ch) o = Some x /\ zget (s_vols s) c = Some v /\
    chip_tl (ym_regs tr) c o = Some (expected_level (c_alg ch) v o (o_tl x)).
Proof. exact c13_levels. Qed.
Print Assumptions C13_levels_mirrored_partial.

Example C13_nonvacuous :
  preset_ok (demo_preset 4) /\
  let ops := [SVolume 3 90; SPreset 3 (demo_preset 6); SPitch 3 5 1000; SDirect 0 0x2C 3; STotalLevel 3 0 11] in
  Forall sop_ok ops /\ Forall no_raw_clash ops /\ Forall level_safe ops /\
  exists s tr, synth_run (SInit (demo_preset 4) :: ops) synth0 = Done tt s tr /\
    chip_alg (ym_regs tr) 3 = Some 6 /\ chip_freq tr 3 = Some (5, 1000) /\ chip_tl (ym_regs tr) 3 0 = Some 11 /\
    chip_tl (ym_regs tr) 3 1 = Some 33.
Proof.
  split; [unfold preset_ok; cbn; repeat constructor; cbn; lia|]. cbv zeta. split; [|split; [|split]].
  - repeat constructor; cbn; unfold is_u8; try lia.
  - repeat constructor. cbn. unfold managed. lia.
  - repeat constructor.
  - eexists; eexists; split; [vm_compute; reflexivity|vm_compute; tauto].
Qed.

(** Loading a preset makes the reported frequency 0 while the chip keeps
    sounding at the old one. *)
Theorem C13_pitch_refuted :
  exists s tr ch, synth_run [SInit (demo_preset 0); SPitch 1 4 1083; SPreset 1 (demo_preset 2)] synth0 = Done tt s tr /\
    zget (s_chans s) 1 = Some ch /\ c_oct ch = 0 /\ c_freq ch = 0 /\ chip_freq tr 1 = Some (4, 1083).
Proof. exact c13_pitch_stale. Qed.
Print Assumptions C13_pitch_refuted.

Theorem C13_special_volume_refuted :
  exists s tr, synth_run [SInit (demo_preset 0); SSpecialVolume 3 0] synth0 = Done tt s tr /\
    zget (s_vols s) 2 = Some 127 /\ chip_tl (ym_regs tr) 2 3 = Some 127 /\ expected_level 0 127 3 50 = 50.
Proof. exact c13_special_volume_stale. Qed.
Print Assumptions C13_special_volume_refuted.

(** ** C14 *)
(** False of the code: at volume 0, switching from algorithm 0 to 7 leaves
    operator 0, now an output, at its preset level 20 instead of 127. *)
Theorem C14_refuted :
  exists s tr, synth_run [SInit (demo_preset 0); SVolume 0 0; SAlgorithm 0 7] synth0 = Done tt s tr /\
    (exists ch, zget (s_chans s) 0 = Some ch /\ c_alg ch = 7) /\ zget (s_vols s) 0 = Some 0 /\
    carrier 7 0 /\ chip_tl (ym_regs tr) 0 0 = Some 20 /\ expected_level 7 0 0 20 = 127.
Proof. exact c13_level_stale. Qed.
Print Assumptions C14_refuted.

(** True when the volume is full or both algorithms have the same outputs. *)
Theorem C14_algorithm_partial :
  forall s tr c a, synth_ok s -> is_ch c -> is_u8 a ->
  forall ch v, zget (s_chans s) c = Some ch -> zget (s_vols s) c = Some v ->
  (forall oo x, is_op oo -> zget (c_ops ch) oo = Some x ->
     chip_tl (ym_regs tr) c oo = Some (expected_level (c_alg ch) v oo (o_tl x))) ->
  (v = 127 \/ forall oo, is_op oo -> (carrier (c_alg ch) oo <-> carrier (a mod 8) oo)) ->
  exists s' o, synth_algorithm c a s = Done tt s' o /\
    forall oo x, is_op oo -> zget (c_ops ch) oo = Some x ->
      chip_tl (ym_regs (tr ++ o)) c oo = Some (expected_level (a mod 8) v oo (o_tl x)).
Proof. exact c14_algorithm. Qed.
Print Assumptions C14_algorithm_partial.

(** Loading a preset and changing the volume do put the right levels in the chip. *)
Theorem C14_preset_keeps_volume :
  forall s tr c p, synth_ok s -> is_ch c -> preset_ok p ->
  exists s' o v, synth_preset c p s = Done tt s' o /\ zget (s_vols s) c = Some v /\
    forall oo x, is_op oo -> zget (p_ops p) oo = Some x ->
      chip_tl (ym_regs (tr ++ o)) c oo = Some (expected_level (p_alg p) v oo (o_tl x)).
Proof. exact c14_preset. Qed.
Print Assumptions C14_preset_keeps_volume.

Example C14_nonvacuous :
  (forall oo, is_op oo -> (carrier 1 oo <-> carrier 3 oo)) /\
  exists s tr, synth_run [SInit (demo_preset 1); SVolume 0 50; SAlgorithm 0 3] synth0 = Done tt s tr /\
    chip_tl (ym_regs tr) 0 3 = Some (expected_level 3 50 3 50) /\ expected_level 3 50 3 50 = 61.
Proof. split; [cbv; tauto|]. eexists; eexists; split; [vm_compute; reflexivity|vm_compute; tauto]. Qed.

(** ** C15 *)
Theorem C15_preset_round_trip :
  forall s c p, synth_ok s -> is_ch c -> preset_ok p ->
  exists s' o, synth_preset c p s = Done tt s' o /\
    synth_extract_preset c s' = Done p s' [] /\
    (forall c', c' <> c -> zget (s_chans s') c' = zget (s_chans s) c') /\
    s_vols s' = s_vols s /\
    (forall ch ch', zget (s_chans s) c = Some ch -> zget (s_chans s') c = Some ch' -> c_st ch' = c_st ch).
Proof. exact c15_load. Qed.
Print Assumptions C15_preset_round_trip.

Theorem C15_preset_in_chip :
  forall s tr c p, synth_ok s -> is_ch c -> preset_ok p ->
  exists s' o, synth_preset c p s = Done tt s' o /\
    chip_alg (ym_regs (tr ++ o)) c = Some (p_alg p) /\ chip_fb (ym_regs (tr ++ o)) c = Some (p_fb p) /\
    chip_ams (ym_regs (tr ++ o)) c = Some (p_ams p) /\ chip_fms (ym_regs (tr ++ o)) c = Some (p_fms p) /\
    forall oo x, is_op oo -> zget (p_ops p) oo = Some x -> op_mirrored (ym_regs (tr ++ o)) c oo x.
Proof. exact c15_chip. Qed.
Print Assumptions C15_preset_in_chip.

Example C15_nonvacuous :
  preset_ok (demo_preset 6) /\ is_ch 5 /\
  exists s tr, synth_run [SInit (demo_preset 0); SPreset 5 (demo_preset 6)] synth0 = Done tt s tr /\
    synth_extract_preset 5 s = Done (demo_preset 6) s [] /\ synth_extract_preset 4 s = Done (demo_preset 0) s [].
Proof.
  split; [unfold preset_ok; cbn; repeat constructor; cbn; lia|]. split; [unfold is_ch; lia|].
  eexists; eexists; split; [vm_compute; reflexivity|vm_compute; tauto].
Qed.

(** ** C16 *)
(** From power-on, after any calls: every chip access owned the bus, the bus is
    held exactly when DAC mode is off, and in DAC mode the chip's address latch
    is left on the DAC data register for the PCM driver. *)
Theorem C16_bus_discipline :
  forall p ops s tr, preset_ok p -> Forall sop_ok ops ->
  synth_run (SInit p :: ops) synth0 = Done tt s tr ->
  bus_safe tr /\ bus_after tr = negb (s_dac s) /\ (s_dac s = true -> latched tr = Some 0x2A).
Proof. exact c16_bus. Qed.
Print Assumptions C16_bus_discipline.

Example C16_nonvacuous :
  exists s tr, synth_run [SInit (demo_preset 0); SDac true; SNoteOn 1; SVolume 2 3] synth0 = Done tt s tr /\
    s_dac s = true /\ bus_after tr = false /\ latched tr = Some 0x2A /\
    existsb (fun e => match e with EvYm 0 0x28 0xF1 => true | _ => false end) tr = true.
Proof. eexists; eexists; split; [vm_compute; reflexivity|vm_compute; tauto]. Qed.

(** ** C65: parameter notifications *)
(** A call notifies the registered callback once for each displayed parameter
    it may change, naming that channel, and otherwise not at all. *)
Theorem C65_parameter_notifications :
  forall op s, synth_ok s -> sop_ok op -> (forall b, op <> SCallback b) ->
  exists s' o, synth_step op s = Done tt s' o /\ notified o = if s_cb s then notify op s else [].
Proof. exact c65_notify. Qed.
Print Assumptions C65_parameter_notifications.

Example C65_nonvacuous :
  exists s tr, synth_run [SInit (demo_preset 0); SCallback true; SDetune 3 1 2; SVolume 3 5; STotalLevel 2 0 20;
                          STotalLevel 2 0 21; SCallback false; SFms 1 1] synth0 = Done tt s tr /\
    notified tr = [(3, 0); (2, 0)].
Proof. eexists; eexists; split; [vm_compute; reflexivity|vm_compute; tauto]. Qed.
