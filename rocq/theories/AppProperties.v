(** C13, C16, C22, C27, C48 for the whole interface.
    [history r hw mem ops s tr]: on the ROM contents [r], the hardware [hw] and a
    cartridge memory [mem], power-on followed by the well-formed messages and
    frames [ops] leads to state [s], and [tr] is everything the program wrote to
    the sound chips, the Z80 bus and the host. *)
From Verif Require Import Base SynthModel SynthSpec SramModel PsgModel MidiModel.
From Verif Require Import DevModel DevSpec AppModel AppSpec AppClaimsProofs AppExampleProofs.
From Verif Require PsgSpec SramSpec MidiSpec.

(** The shipped tables satisfy what the theorems below ask of a ROM. *)
Example shipped_rom_ok : forall pal, rom_ok (shipped pal).
Proof. exact shipped_ok. Qed.

(** ** C13 *)
(** Whatever is received, except raw register writes, every managed YM2612
    register holds the parameters the interface reports; the frequency too unless
    it is reported as 0 because an instrument was loaded and no note followed. *)
Theorem C13_interface : forall r hw mem ops s tr,
  history r hw mem ops s tr -> without raw_write ops ->
  global_mirrored (ym_regs tr) (v_synth (a_dev s)) /\
  forall c, is_ch c -> exists ch, zget (s_chans (v_synth (a_dev s))) c = Some ch /\ chan_mirrored (ym_regs tr) c ch /\
    ((c_oct ch = 0 /\ c_freq ch = 0) \/ chip_freq tr c = Some (c_oct ch, c_freq ch)).
Proof. exact c13_app. Qed.
Print Assumptions C13_interface.
Example C13_interface_nonvacuous :
  let ops := [AMsg (MCc 0 20 99); AMsg (MProgram 3 41); AMsg (MNoteOn 3 60 100); AFrame; AMsg (MNoteOn 7 70 90)] in
  without raw_write ops /\ without resets ops /\
  exists s tr, history (shipped false) no_cartridge blank_memory ops s tr /\
    chip_mul (ym_regs tr) 0 0 = Some 12 /\ key_state tr 3 = Some true /\ chip_freq tr 3 = Some (4, 644) /\
    PsgSpec.chip_att PsgSpec.att_at_boot tr 1 = 1 /\ PsgSpec.chip_att PsgSpec.att_at_boot tr 0 = 15.
Proof. exact c13_app_example. Qed.

(** ** C16 *)
Theorem C16_interface : forall r hw mem ops s tr,
  history r hw mem ops s tr ->
  bus_safe tr /\ bus_after tr = negb (s_dac (v_synth (a_dev s))) /\
  (s_dac (v_synth (a_dev s)) = true -> latched tr = Some 0x2A).
Proof. exact c16_app. Qed.
Print Assumptions C16_interface.

(** ** C22 *)
(** Presets saved earlier are not active after power-on. *)
Theorem C22_refuted : forall r hw, rom_ok r ->
  exists sram n p, SramSpec.sram_ok sram /\ sr_present sram = true /\ 0 <= n < 128 /\ SramSpec.loads sram n (Some p) /\
    exists s tr, history r hw (sr_mem sram) [] s tr /\ instrument r (a_dev s) n <> p.
Proof. exact c22_refuted. Qed.
Print Assumptions C22_refuted.
(** In general: the cartridge memory is never written, and unless a preset is
    stored in this session every program plays the instrument in ROM, whatever the
    memory holds. *)
Theorem C22_memory_unused : forall r hw mem ops s tr,
  history r hw mem ops s tr -> sr_mem (v_sram (a_dev s)) = mem /\ (forall a v, ~ In (EvSramWrite a v) tr).
Proof. exact sram_unused. Qed.
Print Assumptions C22_memory_unused.
Theorem C22_rom_presets : forall r hw mem ops s tr,
  history r hw mem ops s tr -> without stores ops ->
  forall n, 0 <= n < 128 -> instrument r (a_dev s) n = nth (Z.to_nat n) (rom_presets r) no_preset.
Proof. exact presets_forgotten. Qed.
Print Assumptions C22_rom_presets.
Example C22_nonvacuous :
  let ops := [AMsg (MProgram 3 41); AMsg (MNoteOn 3 60 100); AFrame] in
  without stores ops /\ exists s tr, history (shipped false) no_cartridge blank_memory ops s tr /\ key_state tr 3 = Some true.
Proof. exact c22_app_example. Qed.

(** ** C27 *)
(** Missing: histories with a reset message. *)
Theorem C27_interface_partial : forall r hw mem ops s tr,
  history r hw mem ops s tr -> without resets ops -> forall c, PsgSpec.is_psg c ->
  exists ch, zget (ps_chans (v_psg (a_dev s))) c = Some ch /\
    PsgSpec.chip_att PsgSpec.att_at_boot tr c = g_att ch /\ PsgSpec.chip_tone PsgSpec.tone_at_boot tr c = g_freq ch /\
    0 <= PsgSpec.chip_att PsgSpec.att_at_boot tr c <= 15 /\ 0 <= PsgSpec.chip_tone PsgSpec.tone_at_boot tr c < 1024 /\
    (g_on ch = false -> PsgSpec.chip_att PsgSpec.att_at_boot tr c = 15).
Proof. exact c27_app. Qed.
Print Assumptions C27_interface_partial.
(** A reset during a PSG note leaves it sounding although no note is on. *)
Theorem C27_interface_refuted :
  exists s tr, history (shipped false) no_cartridge blank_memory [AMsg (MNoteOn 6 69 100); AFrame; AMsg MReset] s tr /\
    option_map g_on (zget (ps_chans (v_psg (a_dev s))) 0) = Some false /\ PsgSpec.chip_att PsgSpec.att_at_boot tr 0 = 1.
Proof. exact c27_app_refuted. Qed.
Print Assumptions C27_interface_refuted.

(** ** C48 *)
(** Every history of messages and frames runs to the end and leaves every table
    in order, unless it meets a drum key without a sample, or an odd envelope
    upload; these are the only two failures, and each happens at the message
    named. *)
Theorem C48_interface_partial : forall r hw mem ops,
  rom_ok r -> mem_ok mem -> Forall aop_ok ops ->
  (exists s tr, history r hw mem ops s tr /\ app_ok s) \/
  (exists a op b s tr, ops = a ++ op :: b /\ history r hw mem a s tr /\
    ((app_boot r hw mem ops = Fault F_pcm /\ missing_sample (message op) (a_midi s)) \/
     (app_boot r hw mem ops = Fault F_uninit /\ MidiSpec.odd_envelope (message op)))).
Proof. exact c48_app. Qed.
Print Assumptions C48_interface_partial.
(** A key bent above the last sample reads beyond the sample table. *)
Theorem C48_sample_refuted : faults (shipped false) dac_beyond F_pcm.
Proof. exact dac_beyond_faults. Qed.
Print Assumptions C48_sample_refuted.
Theorem C48_envelope_refuted : faults (shipped false) odd_upload F_uninit.
Proof. exact odd_upload_faults. Qed.
Print Assumptions C48_envelope_refuted.
