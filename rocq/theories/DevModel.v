(** Models of src/midi_fm.c, src/midi_fm_sm.c, src/midi_dac.c, src/midi_tx.c
    and of the preset dumps of src/midi.c: performing the calls that
    MidiModel.v emits on the models of the sound chips. *)
From Verif Require Import Base PitchModel SynthModel SramModel PsgModel MidiModel.

(** struct MidiFmChannel, midi_fm.c:19-26 *)
Record mfch := mkMf { f_pitch : Z; f_cents : Z; f_vol : Z; f_vel : Z; f_pan : Z; f_perc : bool }.
Definition f_set_pc c p ce := mkMf p ce (f_vol c) (f_vel c) (f_pan c) (f_perc c).
Definition f_set_vol c v := mkMf (f_pitch c) (f_cents c) v (f_vel c) (f_pan c) (f_perc c).
Definition f_set_vel c v := mkMf (f_pitch c) (f_cents c) (f_vol c) v (f_pan c) (f_perc c).
Definition f_set_pan c v := mkMf (f_pitch c) (f_cents c) (f_vol c) (f_vel c) v (f_perc c).
Definition f_set_perc c v := mkMf (f_pitch c) (f_cents c) (f_vol c) (f_vel c) (f_pan c) v.

(** ROM contents and television system: SYS_isPAL(), defaultPresets and
    percussionPresets (midi_fm.c:38-39), envelopes (midi_psg.c:50),
    percussionPcmSample (pcm_sample.c:80-107, samples by number). *)
Record rom := mkRom {
  rom_pal : bool; rom_presets : list preset; rom_perc : list (preset * Z); rom_envs : list (list Z);
  rom_pcm : list (option Z) }.

(** State of the sound layers: synth.c; fmChannels, midi_fm.c:28;
    activeUserPresets, midi_fm.c:41-42 ([None] is NULL; a non-NULL entry
    always points to the entry of userPresets with the same index); the SRAM;
    midi_psg.c; smOperators, midi_fm_sm.c:12 (pitch, cents).  The Z80 bus is
    one piece of hardware: its state is [s_bus (v_synth s)], and the [sr_bus]
    of [v_sram] is only meaningful inside [on_sram]. *)
Record devst := mkDs {
  v_synth : synth; v_fm : list mfch; v_user : list (option preset); v_sram : sram; v_psg : psg;
  v_sm : list (Z * Z) }.
Definition v_set_synth s v := mkDs v (v_fm s) (v_user s) (v_sram s) (v_psg s) (v_sm s).
Definition v_set_fm s v := mkDs (v_synth s) v (v_user s) (v_sram s) (v_psg s) (v_sm s).
Definition v_set_user s v := mkDs (v_synth s) (v_fm s) v (v_sram s) (v_psg s) (v_sm s).
Definition v_set_sram s v := mkDs (v_synth s) (v_fm s) (v_user s) v (v_psg s) (v_sm s).
Definition v_set_psg s v := mkDs (v_synth s) (v_fm s) (v_user s) (v_sram s) v (v_sm s).
Definition v_set_sm s v := mkDs (v_synth s) (v_fm s) (v_user s) (v_sram s) (v_psg s) v.

Section Dev.
Context (r : rom).

(** A function of synth.c. *)
Definition syn (op : sop) : M devst unit := lift v_synth v_set_synth (synth_step op).
(** A function of midi_psg.c. *)
Definition ps (op : pop) : M devst unit := lift v_psg v_set_psg (psg_step (rom_pal r) (rom_envs r) op).
(** A function of sram.c / midi_fm_sram.c, on the shared Z80 bus. *)
Definition on_sram {A} (m : M sram A) : M devst A :=
  lift (fun s => sr_set_bus (v_sram s) (s_bus (v_synth s)))
       (fun s x => v_set_sram (v_set_synth s (sy_set_bus (v_synth s) (sr_bus x))) x) m.

(** [&fmChannels[chan]] *)
Definition fm_at (chan : Z) : M devst mfch := s <- get ;; rd (v_fm s) chan.
Definition fm_mod (chan : Z) (f : mfch -> mfch) : M devst unit :=
  c <- fm_at chan ;; modify (fun s => v_set_fm s (zset (v_fm s) chan (f c))).

(** A lookup of PitchModel.v, with its bounds fault. *)
Definition freq_num (pitch cents : Z) : M devst Z :=
  match pitch_cents_to_freq_num (rom_pal r) pitch cents with Some f => ret f | None => fail F_oob end.

(** ** midi_fm.c *)
(** midi_fm.c:84-89 *)
Definition set_synth_pitch (chan : Z) : M devst unit :=
  c <- fm_at chan ;;
  f <- freq_num (f_pitch c) (f_cents c) ;;
  syn (SPitch chan (pitch_to_octave (f_pitch c)) f).

(** midi_fm.c:177-180 *)
Definition effective_volume (c : mfch) : Z := u8 (Z.quot (f_vol c * f_vel c) 0x7F).

(** midi_fm.c:91-109 *)
Definition midi_fm_note_on (chan pitch cents velocity : Z) : M devst unit :=
  if fm_pitch_out_of_range pitch then ret tt
  else
    c <- fm_at chan ;;
    pitch <- (if f_perc c then
                x <- rd (rom_perc r) pitch ;; syn (SPreset chan (fst x)) ;; ret (snd x)
              else ret pitch) ;;
    fm_mod chan (fun c => f_set_vel c velocity) ;;
    c <- fm_at chan ;;
    syn (SVolume chan (effective_volume c)) ;;
    fm_mod chan (fun c => f_set_pc c pitch cents) ;;
    set_synth_pitch chan ;;
    syn (SNoteOn chan).

(** midi_fm.c:111-115 *)
Definition midi_fm_note_off (chan pitch : Z) : M devst unit := syn (SNoteOff chan).

(** midi_fm.c:117-122 *)
Definition midi_fm_channel_volume (chan volume : Z) : M devst unit :=
  fm_mod chan (fun c => f_set_vol c volume) ;;
  c <- fm_at chan ;;
  syn (SVolume chan (effective_volume c)).

(** midi_fm.c:126-127, 217: the preset in force for a program *)
Definition current_preset (program : Z) : M devst preset :=
  s <- get ;;
  u <- rd (v_user s) program ;;
  match u with Some p => ret p | None => rd (rom_presets r) program end.

(** midi_fm.c:124-129 *)
Definition midi_fm_program (chan program : Z) : M devst unit :=
  p <- current_preset program ;; syn (SPreset chan p).

(** midi_fm.c:131-134 *)
Definition midi_fm_all_notes_off (chan : Z) : M devst unit := midi_fm_note_off chan 0.

(** midi_fm.c:136-140 *)
Definition midi_fm_percussive (chan : Z) (enabled : bool) : M devst unit :=
  fm_mod chan (fun c => f_set_perc c enabled).

(** midi_fm.c:149-159; STEREO_MODE_LEFT 2, RIGHT 1, CENTRE 3 (synth.h:7-9) *)
Definition update_pan (chan : Z) : M devst unit :=
  c <- fm_at chan ;;
  syn (SStereo chan (if 95 <? f_pan c then 1 else if 31 <? f_pan c then 3 else 2)).

(** midi_fm.c:142-147 *)
Definition midi_fm_pan (chan pan : Z) : M devst unit :=
  fm_mod chan (fun c => f_set_pan c pan) ;; update_pan chan.

(** midi_fm.c:182-188 *)
Definition midi_fm_pitch (chan pitch cents : Z) : M devst unit :=
  fm_mod chan (fun c => f_set_pc c pitch cents) ;; set_synth_pitch chan.

(** midi_fm.c:190-195 *)
Definition midi_fm_store_preset (program : Z) (p : preset) : M devst unit :=
  s <- get ;;
  _ <- rd (v_user s) program ;;
  modify (fun s => v_set_user s (zset (v_user s) program (Some p))) ;;
  on_sram (sram_save_preset program p).

(** midi_fm.c:197-202 *)
Definition midi_fm_clear_preset (program : Z) : M devst unit :=
  s <- get ;;
  _ <- rd (v_user s) program ;;
  modify (fun s => v_set_user s (zset (v_user s) program None)) ;;
  on_sram (sram_clear_preset program).

(** synth.c:505-515 *)
Definition extract_preset (chan : Z) : M devst preset :=
  lift v_synth v_set_synth (synth_extract_preset chan).

(** midi_fm.c:204-209 *)
Definition midi_fm_store_preset_from_channel (chan program : Z) : M devst unit :=
  p <- extract_preset chan ;; midi_fm_store_preset program p.

(** midi_fm.c:65-75: the pitch is not reset. *)
Definition reset_fm_chan (c : mfch) : mfch := mkMf (f_pitch c) 0 127 127 0 false.
Definition reset_fm_channels : M devst unit :=
  forM [0;1;2;3;4;5] (fun chan => fm_mod chan reset_fm_chan).

(** midi_fm.c:51-57: activeUserPresets is cleared (59-63), then filled from
    SRAM; channel 0's default preset is loaded whatever the user presets. *)
Definition midi_fm_reset : M devst unit :=
  modify (fun s => v_set_user s (repeat None 128)) ;;
  reset_fm_channels ;;
  l <- on_sram sram_load_presets ;;
  modify (fun s => v_set_user s l) ;;
  p <- rd (rom_presets r) 0 ;;
  syn (SInit p).

(** midi_fm.c:44-49 with sram.c:38-48; [detected] is "an EverDrive with SRAM
    has been detected" at the time of the call. *)
Definition midi_fm_init (detected : bool) : M devst unit := on_sram (sram_init detected).

(** ** midi_fm_sm.c *)
(** midi_fm_sm.c:20-28 *)
Definition midi_fm_sm_pitch (op pitch cents : Z) : M devst unit :=
  s <- get ;;
  _ <- rd (v_sm s) op ;;
  modify (fun s => v_set_sm s (zset (v_sm s) op (pitch, cents))) ;;
  f <- freq_num pitch cents ;;
  syn (SSpecialPitch op (pitch_to_octave pitch) f).

(** midi_fm_sm.c:14-18 *)
Definition midi_fm_sm_note_on (op pitch cents velocity : Z) : M devst unit :=
  midi_fm_sm_pitch op pitch cents ;;
  syn (SSpecialVolume op velocity).

(** midi_fm_sm.c:30-37 *)
Definition midi_fm_sm_reset : M devst unit := modify (fun s => v_set_sm s [(0, 0); (0, 0); (0, 0)]).

(** ** midi_dac.c *)
(** midi_dac.c:4-11: the index is a u8, the table has 128 entries. *)
Definition midi_dac_note_on (pitch : Z) : M devst unit :=
  match zget (rom_pcm r) pitch with
  | None => fail F_pcm
  | Some None => ret tt
  | Some (Some sample) => emit (EvPcmStart sample)
  end.
(** midi_dac.c:17-20 *)
Definition midi_dac_note_off : M devst unit := emit EvPcmStop.

(** ** midi_tx.c *)
(** midi_tx.c:5-15, midi.h SYSEX_START 0xF0, SYSEX_END 0xF7 *)
Definition tx_bytes (l : list Z) : M devst unit := forM l (fun b => emit (EvTx b)).
Definition midi_tx_send_sysex (data : list Z) : M devst unit := tx_bytes (0xF0 :: data ++ [0xF7]).

(** ** Preset dumps *)
(** midi.c:757-769 *)
Definition dump_operator (o : operator) : list Z :=
  [o_mul o; o_dt o; o_ar o; o_rs o; o_dr o; o_am o; o_sl o; o_sr o; o_rr o; o_tl o; o_ssg o].
(** midi.c:741-774; STORE_PROGRAM_TYPE_FM 0 *)
Definition preset_payload (context : Z) (p : preset) : list Z :=
  [0; context; p_alg p; p_fb p; p_ams p; p_fms p] ++ flat_map dump_operator (p_ops p).
Definition send_preset_dump (context command : Z) (p : preset) : M devst unit :=
  midi_tx_send_sysex ([0x00; 0x22; 0x77; command] ++ preset_payload context p).

(** midi.c:804-824 (SYSEX_COMMAND_PRESET_DATA 14), midi_fm.c:211-218 *)
Definition dump_preset (program : Z) : M devst unit :=
  if 128 <=? program then ret tt
  else p <- current_preset program ;; send_preset_dump program 0x0E p.

(** midi.c:792-794 (SYSEX_COMMAND_CHANNEL_DATA 16) *)
Definition dump_chan (midiChan num : Z) : M devst unit :=
  p <- extract_preset num ;; send_preset_dump midiChan 0x10 p.

(** ** The calls of midi.c *)
(** [detected]: the EverDrive detection flags while midi_init runs. *)
Definition perform (detected : bool) (c : dcall) : M devst unit :=
  match c with
  (* FM_VTable, midi.c:50-51 *)
  | DNoteOn VFm n p ce v => midi_fm_note_on n p ce v
  | DNoteOff VFm n p => midi_fm_note_off n p
  | DVolume VFm n v => midi_fm_channel_volume n v
  | DProgram VFm n v => midi_fm_program n v
  | DAllOff VFm n => midi_fm_all_notes_off n
  | DPan VFm n v => midi_fm_pan n v
  | DPitch VFm n p ce => midi_fm_pitch n p ce
  (* PSG_VTable, midi.c:47-48 *)
  | DNoteOn VPsg n p ce v => ps (PNoteOn n p ce v)
  | DNoteOff VPsg n p => ps (PNoteOff n p)
  | DVolume VPsg n v => ps (PVolume n v)
  | DProgram VPsg n v => ps (PProgram n v)
  | DAllOff VPsg n => ps (PAllOff n)
  | DPan VPsg n v => ps (PPan n v)
  | DPitch VPsg n p ce => ps (PPitch n p ce)
  (* SM_VTable, midi.c:53-55: midi_fm_sm.c:39-58 does nothing *)
  | DNoteOn VSm n p ce v => midi_fm_sm_note_on n p ce v
  | DPitch VSm n p ce => midi_fm_sm_pitch n p ce
  | DNoteOff VSm _ _ | DVolume VSm _ _ | DProgram VSm _ _ | DAllOff VSm _ | DPan VSm _ _ => ret tt
  (* DAC_VTable, midi.c:57-58: midi_dac.c:22-40 does nothing *)
  | DNoteOn VDac _ p _ _ => midi_dac_note_on p
  | DNoteOff VDac _ _ => midi_dac_note_off
  | DVolume VDac _ _ | DProgram VDac _ _ | DAllOff VDac _ | DPan VDac _ _ | DPitch VDac _ _ _ => ret tt
  | DPerc n b => midi_fm_percussive n b
  | DSynth op => syn op
  | DEnv e => ps (PLoad e)
  | DStore prog p => midi_fm_store_preset prog p
  | DClear prog => midi_fm_clear_preset prog
  | DStoreFrom n prog => midi_fm_store_preset_from_channel n prog
  | DDumpPreset prog => dump_preset prog
  | DDumpChan c n => dump_chan c n
  | DTx data => midi_tx_send_sysex data
  (* midi_psg.c:59-65 (the frame handler is in AppModel.v) *)
  | DPsgInit => ps PReset
  | DFmInit => midi_fm_init detected
  | DPsgReset => ps PReset
  | DFmReset => midi_fm_reset
  | DSmReset => midi_fm_sm_reset
  | DChange k c key v => emit (EvMidiChange k c key v)
  | DUi c b => emit (EvUi c (b2z b))
  end.

Definition perform_all (detected : bool) : list dcall -> M devst unit := runM (perform detected).
End Dev.

(** Zero-initialised statics; [mem] is what the SRAM holds at power-on. *)
Definition mfch0 : mfch := mkMf 0 0 0 0 0 false.
Definition devst0 (mem : list Z) : devst :=
  mkDs synth0 (repeat mfch0 6) (repeat None 128) (mkSram false mem false false) psg0 [(0, 0); (0, 0); (0, 0)].
