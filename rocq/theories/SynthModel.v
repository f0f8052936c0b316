(** Model of src/synth.c and src/synth.h: the YM2612 abstraction. *)
From Verif Require Import Base.

(** ** Data types *)

(** synth.h:14-26 (bit-field widths are applied by the setters below). *)
Record operator := mkOp {
  o_mul : Z; o_dt : Z; o_ar : Z; o_rs : Z; o_dr : Z; o_am : Z;
  o_sl : Z; o_sr : Z; o_rr : Z; o_tl : Z; o_ssg : Z }.

(** synth.h:28-37 *)
Record fmchan := mkChan {
  c_alg : Z; c_fb : Z; c_st : Z; c_ams : Z; c_fms : Z; c_oct : Z; c_freq : Z;
  c_ops : list operator }.

(** synth.h:39-45 *)
Record preset := mkPreset {
  p_alg : Z; p_fb : Z; p_ams : Z; p_fms : Z; p_ops : list operator }.

(** synth.c:5-9 static objects, synth.h:47-52 Global.  [s_bus] is not a C
    object: it is the hardware state "the 68000 holds the Z80 bus". *)
Record synth := mkSynth {
  s_lfoen : Z; s_lfofreq : Z; s_special : bool; s_dac : bool;
  s_chans : list fmchan; s_vols : list Z; s_cb : bool; s_bus : bool }.

(** Bit-field stores into an Operator (synth.h:15-25). *)
Definition op_set_mul (o : operator) v := mkOp (bits 4 v) (o_dt o) (o_ar o) (o_rs o) (o_dr o) (o_am o) (o_sl o) (o_sr o) (o_rr o) (o_tl o) (o_ssg o).
Definition op_set_dt (o : operator) v := mkOp (o_mul o) (bits 3 v) (o_ar o) (o_rs o) (o_dr o) (o_am o) (o_sl o) (o_sr o) (o_rr o) (o_tl o) (o_ssg o).
Definition op_set_ar (o : operator) v := mkOp (o_mul o) (o_dt o) (bits 5 v) (o_rs o) (o_dr o) (o_am o) (o_sl o) (o_sr o) (o_rr o) (o_tl o) (o_ssg o).
Definition op_set_rs (o : operator) v := mkOp (o_mul o) (o_dt o) (o_ar o) (bits 2 v) (o_dr o) (o_am o) (o_sl o) (o_sr o) (o_rr o) (o_tl o) (o_ssg o).
Definition op_set_dr (o : operator) v := mkOp (o_mul o) (o_dt o) (o_ar o) (o_rs o) (bits 5 v) (o_am o) (o_sl o) (o_sr o) (o_rr o) (o_tl o) (o_ssg o).
Definition op_set_am (o : operator) v := mkOp (o_mul o) (o_dt o) (o_ar o) (o_rs o) (o_dr o) (bits 1 v) (o_sl o) (o_sr o) (o_rr o) (o_tl o) (o_ssg o).
Definition op_set_sl (o : operator) v := mkOp (o_mul o) (o_dt o) (o_ar o) (o_rs o) (o_dr o) (o_am o) (bits 4 v) (o_sr o) (o_rr o) (o_tl o) (o_ssg o).
Definition op_set_sr (o : operator) v := mkOp (o_mul o) (o_dt o) (o_ar o) (o_rs o) (o_dr o) (o_am o) (o_sl o) (bits 5 v) (o_rr o) (o_tl o) (o_ssg o).
Definition op_set_rr (o : operator) v := mkOp (o_mul o) (o_dt o) (o_ar o) (o_rs o) (o_dr o) (o_am o) (o_sl o) (o_sr o) (bits 4 v) (o_tl o) (o_ssg o).
Definition op_set_tl (o : operator) v := mkOp (o_mul o) (o_dt o) (o_ar o) (o_rs o) (o_dr o) (o_am o) (o_sl o) (o_sr o) (o_rr o) (bits 7 v) (o_ssg o).
Definition op_set_ssg (o : operator) v := mkOp (o_mul o) (o_dt o) (o_ar o) (o_rs o) (o_dr o) (o_am o) (o_sl o) (o_sr o) (o_rr o) (o_tl o) (bits 4 v).

(** Bit-field stores into an FmChannel (synth.h:29-35). *)
Definition ch_set_alg (c : fmchan) v := mkChan (bits 3 v) (c_fb c) (c_st c) (c_ams c) (c_fms c) (c_oct c) (c_freq c) (c_ops c).
Definition ch_set_fb (c : fmchan) v := mkChan (c_alg c) (bits 3 v) (c_st c) (c_ams c) (c_fms c) (c_oct c) (c_freq c) (c_ops c).
Definition ch_set_st (c : fmchan) v := mkChan (c_alg c) (c_fb c) (bits 2 v) (c_ams c) (c_fms c) (c_oct c) (c_freq c) (c_ops c).
Definition ch_set_ams (c : fmchan) v := mkChan (c_alg c) (c_fb c) (c_st c) (bits 2 v) (c_fms c) (c_oct c) (c_freq c) (c_ops c).
Definition ch_set_fms (c : fmchan) v := mkChan (c_alg c) (c_fb c) (c_st c) (c_ams c) (bits 3 v) (c_oct c) (c_freq c) (c_ops c).
Definition ch_set_pitch (c : fmchan) o f := mkChan (c_alg c) (c_fb c) (c_st c) (c_ams c) (c_fms c) (bits 3 o) (bits 11 f) (c_ops c).
Definition ch_set_ops (c : fmchan) l := mkChan (c_alg c) (c_fb c) (c_st c) (c_ams c) (c_fms c) (c_oct c) (c_freq c) l.

(** Stores into the statics of synth.c:5-9. *)
Definition sy_set_chans (s : synth) l := mkSynth (s_lfoen s) (s_lfofreq s) (s_special s) (s_dac s) l (s_vols s) (s_cb s) (s_bus s).
Definition sy_set_vols (s : synth) l := mkSynth (s_lfoen s) (s_lfofreq s) (s_special s) (s_dac s) (s_chans s) l (s_cb s) (s_bus s).
Definition sy_set_lfoen (s : synth) v := mkSynth (bits 1 v) (s_lfofreq s) (s_special s) (s_dac s) (s_chans s) (s_vols s) (s_cb s) (s_bus s).
Definition sy_set_lfofreq (s : synth) v := mkSynth (s_lfoen s) (bits 3 v) (s_special s) (s_dac s) (s_chans s) (s_vols s) (s_cb s) (s_bus s).
Definition sy_set_special (s : synth) b := mkSynth (s_lfoen s) (s_lfofreq s) b (s_dac s) (s_chans s) (s_vols s) (s_cb s) (s_bus s).
Definition sy_set_dac (s : synth) b := mkSynth (s_lfoen s) (s_lfofreq s) (s_special s) b (s_chans s) (s_vols s) (s_cb s) (s_bus s).
Definition sy_set_cb (s : synth) b := mkSynth (s_lfoen s) (s_lfofreq s) (s_special s) (s_dac s) (s_chans s) (s_vols s) b (s_bus s).
Definition sy_set_bus (s : synth) b := mkSynth (s_lfoen s) (s_lfofreq s) (s_special s) (s_dac s) (s_chans s) (s_vols s) (s_cb s) b.

(** ** Constants *)

(** synth.c:13-18 *)
Definition VOLUME_TO_TOTAL_LEVELS : list Z := [
  127; 122; 117; 113; 108; 104; 100; 97; 93; 89; 86; 83;
  80; 77; 74; 71; 68; 66; 63; 61; 58; 56; 54; 52; 50; 48; 46; 44; 43; 41; 40; 38; 37; 35; 34; 32;
  31; 30; 29; 28; 27; 26; 25; 24; 23; 22; 21; 20; 19; 19; 18; 17; 17; 16; 15; 15; 14; 13; 13; 12;
  12; 11; 11; 11; 10; 10; 9; 9; 9; 8; 8; 7; 7; 7; 7; 6; 6; 6; 5; 5; 5; 5; 5; 4; 4; 4; 4; 4; 3; 3;
  3; 3; 3; 3; 3; 2; 2; 2; 2; 2; 2; 2; 2; 1; 1; 1; 1; 1; 1; 1; 1; 1; 1; 1; 1; 1; 1; 0; 0; 0; 0; 0;
  0; 0; 0; 0; 0; 0 ].

(** synth.h:4-12, synth.c:11 *)
Definition MAX_FM_CHANS : Z := 6.
Definition CH3 : Z := 2.
Definition MAX_VOLUME : Z := 127.
Definition STEREO_CENTRE : Z := 3.

(** ym2612_regs.h *)
Definition YM_LFO := 0x22.
Definition YM_CH3_MODE := 0x27.
Definition YM_KEY := 0x28.
Definition YM_DAC_DATA := 0x2A.
Definition YM_DAC_EN := 0x2B.
Definition YM_FREQ_LSB := 0xA0.
Definition YM_FREQ_MSB := 0xA4.
Definition YM_ALG_FB := 0xB0.
Definition YM_STEREO := 0xB4.
Definition YM_MUL_DT := 0x30.
Definition YM_TL := 0x40.
Definition YM_AR_RS := 0x50.
Definition YM_DR_AM := 0x60.
Definition YM_SR := 0x70.
Definition YM_RR_SL := 0x80.
Definition YM_SSG := 0x90.
Definition YM_SM_LSB := 0xA8.
Definition YM_SM_MSB := 0xAC.

(** ** Register access *)

(** synth.c:499-503 *)
Definition release_z80_bus : M synth unit :=
  emit (EvYmLatch 0 YM_DAC_DATA) ;;
  emit EvZ80Rel ;;
  modify (fun s => sy_set_bus s false).

(** SGDK Z80_getAndRequestBus: takes the bus, returns whether it was taken. *)
Definition z80_get_and_request_bus : M synth bool :=
  taken <- gets s_bus ;;
  when (negb taken) (emit EvZ80Req) ;;
  modify (fun s => sy_set_bus s true) ;;
  ret taken.

(** synth.c:483-497 *)
Definition write_reg_safe (part reg data : Z) : M synth unit :=
  dac <- gets s_dac ;;
  if negb dac then emit (EvYm part reg data)
  else
    taken <- z80_get_and_request_bus ;;
    emit (EvYm part reg data) ;;
    when (negb taken) release_z80_bus.

(** synth.c:284-289.  [data] is a u8 parameter. *)
Definition write_channel_reg (channel baseReg data : Z) : M synth unit :=
  let part := if channel >? 2 then 1 else 0 in
  let reg := u8 (baseReg + channel mod 3) in
  write_reg_safe part reg (u8 data).

(** synth.c:291-300 *)
Definition reg_operator_index (op : Z) : Z :=
  if op =? 1 then 2 else if op =? 2 then 1 else op.

(** synth.c:302-305 *)
Definition write_operator_reg (channel op baseReg data : Z) : M synth unit :=
  write_channel_reg channel (u8 (baseReg + reg_operator_index op * 4)) data.

(** synth.c:307-310 *)
Definition key_on_off_reg_offset (channel : Z) : Z :=
  if channel <? 3 then channel else u8 (channel + 1).

(** [fmChannels[channel]] *)
Definition get_chan (channel : Z) : M synth fmchan :=
  s <- get ;; rd (s_chans s) channel.

(** synth.c:312-315 *)
Definition get_operator (channel op : Z) : M synth operator :=
  c <- get_chan channel ;; rd (c_ops c) op.

(** Store through the pointer [&fmChannels[channel]]. *)
Definition mod_chan (channel : Z) (f : fmchan -> fmchan) : M synth unit :=
  c <- get_chan channel ;;
  modify (fun s => sy_set_chans s (zset (s_chans s) channel (f c))).

(** Store through the pointer [get_operator(channel, op)]. *)
Definition mod_operator (channel op : Z) (f : operator -> operator) : M synth unit :=
  o <- get_operator channel op ;;
  mod_chan channel (fun c => ch_set_ops c (zset (c_ops c) op (f o))).

(** synth.c:317-320 *)
Definition write_global_lfo : M synth unit :=
  s <- get ;;
  write_reg_safe 0 YM_LFO (u8 (Z.lor (Z.shiftl (s_lfoen s) 3) (s_lfofreq s))).

(** synth.c:322-325 *)
Definition write_dac_reg : M synth unit :=
  d <- gets s_dac ;; write_reg_safe 0 YM_DAC_EN (if d : bool then 0x80 else 0).

(** synth.c:327-332 *)
Definition write_octave_and_frequency (channel : Z) : M synth unit :=
  c <- get_chan channel ;;
  write_channel_reg channel YM_FREQ_MSB (Z.lor (Z.shiftr (c_freq c) 8) (Z.shiftl (c_oct c) 3)) ;;
  c <- get_chan channel ;;
  write_channel_reg channel YM_FREQ_LSB (c_freq c).

(** synth.c:334-338 *)
Definition write_algorithm_and_feedback (channel : Z) : M synth unit :=
  c <- get_chan channel ;;
  write_channel_reg channel YM_ALG_FB (Z.shiftl (c_fb c) 3 + c_alg c).

(** synth.c:340-345 *)
Definition write_stereo_ams_fms (channel : Z) : M synth unit :=
  c <- get_chan channel ;;
  write_channel_reg channel YM_STEREO (Z.shiftl (c_st c) 6 + Z.shiftl (c_ams c) 4 + c_fms c).

(** synth.c:347-352 *)
Definition write_operator_multiple_and_detune (channel op : Z) : M synth unit :=
  o <- get_operator channel op ;;
  write_operator_reg channel op YM_MUL_DT (o_mul o + Z.shiftl (o_dt o) 4).

(** synth.c:354-359 *)
Definition write_operator_rate_scaling_and_attack_rate (channel op : Z) : M synth unit :=
  o <- get_operator channel op ;;
  write_operator_reg channel op YM_AR_RS (o_ar o + Z.shiftl (o_rs o) 6).

(** synth.c:361-366 *)
Definition write_operator_amplitude_modulation_and_decay_rate (channel op : Z) : M synth unit :=
  o <- get_operator channel op ;;
  write_operator_reg channel op YM_DR_AM (o_dr o + Z.shiftl (o_am o) 7).

(** synth.c:368-372 *)
Definition write_operator_sustain_rate (channel op : Z) : M synth unit :=
  o <- get_operator channel op ;;
  write_operator_reg channel op YM_SR (o_sr o).

(** synth.c:374-379 *)
Definition write_operator_release_rate_and_sustain_level (channel op : Z) : M synth unit :=
  o <- get_operator channel op ;;
  write_operator_reg channel op YM_RR_SL (o_rr o + Z.shiftl (o_sl o) 4).

(** synth.c:381-385 *)
Definition write_operator_ssg_eg (channel op : Z) : M synth unit :=
  o <- get_operator channel op ;;
  write_operator_reg channel op YM_SSG (o_ssg o).

(** synth.c:401-405 *)
Definition is_output_operator (algorithm op : Z) : bool :=
  ((algorithm <? 4) && (op =? 3))
  || ((algorithm =? 4) && ((op =? 1) || (op =? 3)))
  || (((algorithm =? 5) || (algorithm =? 6)) && (op >? 0))
  || (algorithm =? 7).

(** synth.c:410-413 and 457-460: the arithmetic after the table lookup
    ([lvl] is VOLUME_TO_TOTAL_LEVELS[volume]). *)
Definition adjust_total_level (lvl totalLevel : Z) : Z :=
  let logarithmicVolume := u8 (0x7F - lvl) in
  let inverseTotalLevel := u8 (0x7F - totalLevel) in
  let inverseNewTotalLevel := u8 (inverseTotalLevel * logarithmicVolume / 0x7F) in
  u8 (0x7F - inverseNewTotalLevel).

(** synth.c:407-414 *)
Definition volume_adjusted_total_level (channel totalLevel : Z) : M synth Z :=
  s <- get ;;
  volume <- rd (s_vols s) channel ;;
  lvl <- rd VOLUME_TO_TOTAL_LEVELS volume ;;
  ret (adjust_total_level lvl totalLevel).

(** synth.c:394-399 *)
Definition effective_total_level (channel op totalLevel : Z) : M synth Z :=
  c <- get_chan channel ;;
  if is_output_operator (c_alg c) op
  then volume_adjusted_total_level channel totalLevel
  else ret totalLevel.

(** synth.c:387-392 *)
Definition write_operator_total_level (channel op : Z) : M synth unit :=
  o <- get_operator channel op ;;
  tl <- effective_total_level channel op (o_tl o) ;;
  write_operator_reg channel op YM_TL tl.

(** synth.c:431-434 *)
Definition write_special_mode_reg : M synth unit :=
  b <- gets s_special ;;
  write_reg_safe 0 YM_CH3_MODE (u8 (Z.shiftl (b2z b) 6)).

(** synth.c:270-275, 277-282 (kind 0 = Channel, 1 = Lfo, 2 = SpecialMode) *)
Definition parameter_updated (channel kind : Z) : M synth unit :=
  cb <- gets s_cb ;; when cb (emit (EvParam channel kind)).

(** synth.c:78-91 *)
Definition update_channel (chan : Z) : M synth unit :=
  write_algorithm_and_feedback chan ;;
  write_stereo_ams_fms chan ;;
  forM [0;1;2;3] (fun op =>
    write_operator_multiple_and_detune chan op ;;
    write_operator_rate_scaling_and_attack_rate chan op ;;
    write_operator_amplitude_modulation_and_decay_rate chan op ;;
    write_operator_sustain_rate chan op ;;
    write_operator_release_rate_and_sustain_level chan op ;;
    write_operator_total_level chan op ;;
    write_operator_ssg_eg chan op).

(** synth.c:47-59.  The preset's fields already have the field widths; the
    operator array is copied whole. *)
Definition preset_to_channel (p : preset) (st : Z) : fmchan :=
  mkChan (bits 3 (p_alg p)) (bits 3 (p_fb p)) (bits 2 st) (bits 2 (p_ams p)) (bits 3 (p_fms p))
         0 0 (p_ops p).

(** ** Public API *)

(** synth.c:93-99 *)
Definition init_global : M synth unit :=
  modify (fun s => sy_set_dac (sy_set_special (sy_set_lfofreq (sy_set_lfoen s 1) 0) false) false).

(** synth.c:471-481.  Z80_loadDriver leaves the bus free. *)
Definition synth_enable_dac (enable : bool) : M synth unit :=
  d <- gets s_dac ;;
  (if (enable && negb d)%bool then
     emit (EvZ80Load true) ;; modify (fun s => sy_set_bus s false)
   else if negb enable then
     emit (EvZ80Load false) ;; modify (fun s => sy_set_bus s false) ;;
     emit EvZ80Req ;; modify (fun s => sy_set_bus s true)
   else ret tt) ;;
  modify (fun s => sy_set_dac s enable) ;;
  write_dac_reg.

(** synth.c:101-104 *)
Definition synth_note_on (channel : Z) : M synth unit :=
  write_reg_safe 0 YM_KEY (u8 (0xF0 + key_on_off_reg_offset channel)).

(** synth.c:106-109 *)
Definition synth_note_off (channel : Z) : M synth unit :=
  write_reg_safe 0 YM_KEY (key_on_off_reg_offset channel).

(** synth.c:61-76 *)
Definition synth_init (p : preset) : M synth unit :=
  init_global ;;
  synth_enable_dac false ;;
  write_special_mode_reg ;;
  forM [0;1;2;3;4;5] (fun chan =>
    s <- get ;;
    _ <- rd (s_vols s) chan ;;
    modify (fun s => sy_set_vols s (zset (s_vols s) chan MAX_VOLUME)) ;;
    synth_note_off chan ;;
    mod_chan chan (fun _ => preset_to_channel p STEREO_CENTRE) ;;
    update_channel chan) ;;
  write_global_lfo.

(** synth.c:111-117 *)
Definition synth_pitch (channel octave freqNumber : Z) : M synth unit :=
  mod_chan channel (fun c => ch_set_pitch c octave freqNumber) ;;
  write_octave_and_frequency channel.

(** synth.c:119-128 *)
Definition synth_volume (channel volume : Z) : M synth unit :=
  s <- get ;;
  v <- rd (s_vols s) channel ;;
  if v =? volume then ret tt
  else
    modify (fun s => sy_set_vols s (zset (s_vols s) channel volume)) ;;
    forM [0;1;2;3] (fun op => write_operator_total_level channel op).

(** synth.c:130-135 *)
Definition synth_stereo (channel st : Z) : M synth unit :=
  mod_chan channel (fun c => ch_set_st c st) ;;
  write_stereo_ams_fms channel ;;
  parameter_updated channel 0.

(** synth.c:137-142 *)
Definition synth_algorithm (channel alg : Z) : M synth unit :=
  mod_chan channel (fun c => ch_set_alg c alg) ;;
  write_algorithm_and_feedback channel ;;
  parameter_updated channel 0.

(** synth.c:144-149 *)
Definition synth_feedback (channel fb : Z) : M synth unit :=
  mod_chan channel (fun c => ch_set_fb c fb) ;;
  write_algorithm_and_feedback channel ;;
  parameter_updated channel 0.

(** synth.c:151-160 *)
Definition synth_operator_total_level (channel op tl : Z) : M synth unit :=
  o <- get_operator channel op ;;
  if o_tl o =? tl then ret tt
  else
    mod_operator channel op (fun o => op_set_tl o tl) ;;
    write_operator_total_level channel op ;;
    parameter_updated channel 0.

(** synth.c:162-167 *)
Definition synth_operator_multiple (channel op v : Z) : M synth unit :=
  mod_operator channel op (fun o => op_set_mul o v) ;;
  write_operator_multiple_and_detune channel op ;;
  parameter_updated channel 0.

(** synth.c:169-174 *)
Definition synth_operator_detune (channel op v : Z) : M synth unit :=
  mod_operator channel op (fun o => op_set_dt o v) ;;
  write_operator_multiple_and_detune channel op ;;
  parameter_updated channel 0.

(** synth.c:176-181 *)
Definition synth_operator_rate_scaling (channel op v : Z) : M synth unit :=
  mod_operator channel op (fun o => op_set_rs o v) ;;
  write_operator_rate_scaling_and_attack_rate channel op ;;
  parameter_updated channel 0.

(** synth.c:183-188 *)
Definition synth_operator_attack_rate (channel op v : Z) : M synth unit :=
  mod_operator channel op (fun o => op_set_ar o v) ;;
  write_operator_rate_scaling_and_attack_rate channel op ;;
  parameter_updated channel 0.

(** synth.c:190-195 *)
Definition synth_operator_sustain_rate (channel op v : Z) : M synth unit :=
  mod_operator channel op (fun o => op_set_sr o v) ;;
  write_operator_sustain_rate channel op ;;
  parameter_updated channel 0.

(** synth.c:197-202 *)
Definition synth_operator_release_rate (channel op v : Z) : M synth unit :=
  mod_operator channel op (fun o => op_set_rr o v) ;;
  write_operator_release_rate_and_sustain_level channel op ;;
  parameter_updated channel 0.

(** synth.c:204-209 *)
Definition synth_operator_ssg_eg (channel op v : Z) : M synth unit :=
  mod_operator channel op (fun o => op_set_ssg o v) ;;
  write_operator_ssg_eg channel op ;;
  parameter_updated channel 0.

(** synth.c:211-216 *)
Definition synth_operator_sustain_level (channel op v : Z) : M synth unit :=
  mod_operator channel op (fun o => op_set_sl o v) ;;
  write_operator_release_rate_and_sustain_level channel op ;;
  parameter_updated channel 0.

(** synth.c:218-223 *)
Definition synth_operator_decay_rate (channel op v : Z) : M synth unit :=
  mod_operator channel op (fun o => op_set_dr o v) ;;
  write_operator_amplitude_modulation_and_decay_rate channel op ;;
  parameter_updated channel 0.

(** synth.c:225-230 *)
Definition synth_operator_amplitude_modulation (channel op v : Z) : M synth unit :=
  mod_operator channel op (fun o => op_set_am o v) ;;
  write_operator_amplitude_modulation_and_decay_rate channel op ;;
  parameter_updated channel 0.

(** synth.c:232-237 *)
Definition synth_enable_lfo (v : Z) : M synth unit :=
  modify (fun s => sy_set_lfoen s v) ;;
  write_global_lfo ;;
  parameter_updated 0 1.

(** synth.c:239-244 *)
Definition synth_global_lfo_frequency (v : Z) : M synth unit :=
  modify (fun s => sy_set_lfofreq s v) ;;
  write_global_lfo ;;
  parameter_updated 0 1.

(** synth.c:246-251 *)
Definition synth_ams (channel v : Z) : M synth unit :=
  mod_chan channel (fun c => ch_set_ams c v) ;;
  write_stereo_ams_fms channel ;;
  parameter_updated channel 0.

(** synth.c:253-258 *)
Definition synth_fms (channel v : Z) : M synth unit :=
  mod_chan channel (fun c => ch_set_fms c v) ;;
  write_stereo_ams_fms channel ;;
  parameter_updated channel 0.

(** synth.c:260-268 *)
Definition synth_preset (channel : Z) (p : preset) : M synth unit :=
  mod_chan channel (fun c => preset_to_channel p (c_st c)) ;;
  update_channel channel ;;
  parameter_updated channel 0.

(** synth.c:426-429 (only whether a callback is registered matters) *)
Definition synth_set_parameter_update_callback (cb : bool) : M synth unit :=
  modify (fun s => sy_set_cb s cb).

(** synth.c:436-441 *)
Definition synth_set_special_mode (enable : bool) : M synth unit :=
  modify (fun s => sy_set_special s enable) ;;
  write_special_mode_reg ;;
  parameter_updated 0 2.

(** synth.c:443-448.  [op] is u8, [freqNumber] u16; both register data are
    converted to u8 at the call of write_reg_safe. *)
Definition synth_special_mode_pitch (op octave freqNumber : Z) : M synth unit :=
  let offset := u8 ((op + 1) mod 3) in
  write_reg_safe 0 (u8 (YM_SM_MSB + offset)) (u8 (Z.lor (Z.shiftr freqNumber 8) (Z.shiftl octave 3))) ;;
  write_reg_safe 0 (u8 (YM_SM_LSB + offset)) (u8 freqNumber).

(** synth.c:450-464 *)
Definition synth_special_mode_volume (op volume : Z) : M synth unit :=
  o <- get_operator CH3 op ;;
  c <- get_chan CH3 ;;
  if negb (is_output_operator (c_alg c) op) then ret tt
  else
    lvl <- rd VOLUME_TO_TOTAL_LEVELS volume ;;
    tl <- effective_total_level CH3 op (adjust_total_level lvl (o_tl o)) ;;
    write_operator_reg CH3 op YM_TL tl.

(** synth.c:466-469 *)
Definition synth_direct_write_ym2612 (part reg data : Z) : M synth unit :=
  write_reg_safe part reg data.

(** synth.c:505-515 *)
Definition synth_extract_preset (channel : Z) : M synth preset :=
  c <- get_chan channel ;;
  ret (mkPreset (c_alg c) (c_fb c) (c_ams c) (c_fms c) (c_ops c)).

(** ** Histories of API calls *)
Inductive sop : Type :=
| SInit (p : preset)
| SNoteOn (c : Z) | SNoteOff (c : Z)
| SPitch (c oct freq : Z) | SVolume (c v : Z) | SStereo (c v : Z)
| SAlgorithm (c v : Z) | SFeedback (c v : Z) | SAms (c v : Z) | SFms (c v : Z)
| STotalLevel (c o v : Z) | SMultiple (c o v : Z) | SDetune (c o v : Z)
| SRateScaling (c o v : Z) | SAttackRate (c o v : Z) | SDecayRate (c o v : Z)
| SSustainRate (c o v : Z) | SSustainLevel (c o v : Z) | SAmpMod (c o v : Z)
| SReleaseRate (c o v : Z) | SSsgEg (c o v : Z)
| SEnableLfo (v : Z) | SLfoFrequency (v : Z)
| SPreset (c : Z) (p : preset)
| SCallback (b : bool) | SSpecialMode (b : bool)
| SSpecialPitch (o oct freq : Z) | SSpecialVolume (o v : Z)
| SDirect (part reg data : Z)
| SDac (b : bool).

Definition synth_step (op : sop) : M synth unit :=
  match op with
  | SInit p => synth_init p
  | SNoteOn c => synth_note_on c
  | SNoteOff c => synth_note_off c
  | SPitch c o f => synth_pitch c o f
  | SVolume c v => synth_volume c v
  | SStereo c v => synth_stereo c v
  | SAlgorithm c v => synth_algorithm c v
  | SFeedback c v => synth_feedback c v
  | SAms c v => synth_ams c v
  | SFms c v => synth_fms c v
  | STotalLevel c o v => synth_operator_total_level c o v
  | SMultiple c o v => synth_operator_multiple c o v
  | SDetune c o v => synth_operator_detune c o v
  | SRateScaling c o v => synth_operator_rate_scaling c o v
  | SAttackRate c o v => synth_operator_attack_rate c o v
  | SDecayRate c o v => synth_operator_decay_rate c o v
  | SSustainRate c o v => synth_operator_sustain_rate c o v
  | SSustainLevel c o v => synth_operator_sustain_level c o v
  | SAmpMod c o v => synth_operator_amplitude_modulation c o v
  | SReleaseRate c o v => synth_operator_release_rate c o v
  | SSsgEg c o v => synth_operator_ssg_eg c o v
  | SEnableLfo v => synth_enable_lfo v
  | SLfoFrequency v => synth_global_lfo_frequency v
  | SPreset c p => synth_preset c p
  | SCallback b => synth_set_parameter_update_callback b
  | SSpecialMode b => synth_set_special_mode b
  | SSpecialPitch o oct f => synth_special_mode_pitch o oct f
  | SSpecialVolume o v => synth_special_mode_volume o v
  | SDirect p r d => synth_direct_write_ym2612 p r d
  | SDac b => synth_enable_dac b
  end.

Definition synth_run : list sop -> M synth unit := runM synth_step.

(** Zero-initialised statics (C static storage); the Z80 bus is free after
    the SGDK start-up code. *)
Definition op0 : operator := mkOp 0 0 0 0 0 0 0 0 0 0 0.
Definition chan0 : fmchan := mkChan 0 0 0 0 0 0 0 [op0; op0; op0; op0].
Definition synth0 : synth :=
  mkSynth 0 0 false false [chan0; chan0; chan0; chan0; chan0; chan0] [0;0;0;0;0;0] false false.
