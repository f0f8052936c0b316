(** What users of the sound layers rely on. *)
From Verif Require Import Base PitchModel SynthModel SramModel PsgModel MidiModel DevModel.
From Verif Require SynthSpec PsgSpec SramSpec MidiSpec.

Definition seven (x : Z) : Prop := 0 <= x < 128.

(** ROM contents: 128 legal presets, 128 percussion entries whose key is one an
    FM channel can play or 0 (entry not in use), 128 envelopes, 128 samples. *)
Definition rom_ok (r : rom) : Prop :=
  length (rom_presets r) = 128%nat /\ Forall SynthSpec.preset_ok (rom_presets r) /\
  length (rom_perc r) = 128%nat /\ Forall (fun x => SynthSpec.preset_ok (fst x) /\ seven (snd x)) (rom_perc r) /\
  PsgSpec.envs_ok (rom_envs r) /\ length (rom_pcm r) = 128%nat.

(** ** Events by chip *)
(** What the YM2612 side sees: register writes, the Z80 bus and driver, and the
    parameter notifications. *)
Definition fm_event (e : event) : bool :=
  match e with EvYm _ _ _ | EvYmLatch _ _ | EvZ80Load _ | EvZ80Req | EvZ80Rel | EvParam _ _ => true | _ => false end.
Definition psg_event (e : event) : bool :=
  match e with EvPsgTone _ _ | EvPsgAtt _ _ => true | _ => false end.
(** Bytes sent to the MIDI host. *)
Definition tx_event (e : event) : list Z := match e with EvTx b => [b] | _ => [] end.
Definition sent (o : list event) : list Z := flat_map tx_event o.
(** Samples started on the DAC. *)
Definition pcm_event (e : event) : bool := match e with EvPcmStart _ | EvPcmStop => true | _ => false end.
Definition sram_event (e : event) : bool := match e with EvSramWrite _ _ => true | _ => false end.

(** ** The calls of midi.c as calls of synth.c and midi_psg.c *)
(** FM channel [n] of midi_fm.c. *)
Definition fm_of (s : devst) (n : Z) : mfch := nth (Z.to_nat n) (v_fm s) mfch0.
(** Instrument in force for a program: the user's, else the one in ROM. *)
Definition no_preset : preset := mkPreset 0 0 0 0 [].
Definition instrument (r : rom) (s : devst) (program : Z) : preset :=
  match zget (v_user s) program with
  | Some (Some p) => p
  | _ => nth (Z.to_nat program) (rom_presets r) no_preset
  end.
Definition drum (r : rom) (key : Z) : preset * Z := nth (Z.to_nat key) (rom_perc r) (no_preset, 0).
Definition loudness (volume velocity : Z) : Z := volume * velocity / 127.
Definition freq_of (r : rom) (key cents : Z) : Z :=
  match pitch_cents_to_freq_num (rom_pal r) key cents with Some f => f | None => 0 end.
(** Stereo setting of a MIDI pan value: 1 right, 2 left, 3 both. *)
Definition pan_side (pan : Z) : Z := if pan <? 32 then 2 else if pan <? 96 then 3 else 1.
(** Keys an FM channel plays. *)
Definition playable (key : Z) : bool := (11 <=? key) && (key <=? 106).

Definition synth_calls (r : rom) (s : devst) (c : dcall) : list sop :=
  match c with
  | DNoteOn VFm n p ce v =>
      if playable p then
        let perc := f_perc (fm_of s n) in
        let key := if perc then snd (drum r p) else p in
        (if perc then [SPreset n (fst (drum r p))] else []) ++
        [SVolume n (loudness (f_vol (fm_of s n)) v); SPitch n (pitch_to_octave key) (freq_of r key ce); SNoteOn n]
      else []
  | DNoteOff VFm n _ | DAllOff VFm n => [SNoteOff n]
  | DVolume VFm n v => [SVolume n (loudness v (f_vel (fm_of s n)))]
  | DProgram VFm n p => [SPreset n (instrument r s p)]
  | DPan VFm n v => [SStereo n (pan_side v)]
  | DPitch VFm n p ce => [SPitch n (pitch_to_octave p) (freq_of r p ce)]
  | DNoteOn VSm n p ce v => [SSpecialPitch n (pitch_to_octave p) (freq_of r p ce); SSpecialVolume n v]
  | DPitch VSm n p ce => [SSpecialPitch n (pitch_to_octave p) (freq_of r p ce)]
  | DSynth op => [op]
  | DFmReset => [SInit (nth 0 (rom_presets r) no_preset)]
  | _ => []
  end.
Definition psg_calls (c : dcall) : list pop :=
  match c with
  | DNoteOn VPsg n p ce v => [PNoteOn n p ce v]
  | DNoteOff VPsg n p => [PNoteOff n p]
  | DVolume VPsg n v => [PVolume n v]
  | DProgram VPsg n v => [PProgram n v]
  | DAllOff VPsg n => [PAllOff n]
  | DPan VPsg n v => [PPan n v]
  | DPitch VPsg n p ce => [PPitch n p ce]
  | DEnv e => [PLoad e]
  | DPsgInit | DPsgReset => [PReset]
  | _ => []
  end.

(** Channel [n] as a preset. *)
Definition channel_preset (s : devst) (n : Z) : preset :=
  match zget (s_chans (v_synth s)) n with
  | Some c => mkPreset (c_alg c) (c_fb c) (c_ams c) (c_fms c) (c_ops c)
  | None => no_preset
  end.
(** What reaches neither chip: bytes sent to the host, samples started and
    stopped on the DAC, and the notifications of the user interface. *)
Definition other_event (e : event) : bool := negb (fm_event e || psg_event e).
(** An operator on the wire: MUL DT AR RS DR AM SL SR RR TL SSG-EG. *)
Definition operator_bytes (o : operator) : list Z :=
  [o_mul o; o_dt o; o_ar o; o_rs o; o_dr o; o_am o; o_sl o; o_sr o; o_rr o; o_tl o; o_ssg o].
(** A preset on the wire: type FM, what it belongs to (program or channel),
    algorithm, feedback, AMS, FMS and the operators. *)
Definition preset_message (command context : Z) (p : preset) : list Z :=
  [0xF0; 0x00; 0x22; 0x77; command; 0; context; p_alg p; p_fb p; p_ams p; p_fms p] ++
  flat_map operator_bytes (p_ops p) ++ [0xF7].
Definition other_by (r : rom) (s : devst) (c : dcall) : list event :=
  match c with
  | DNoteOn VDac _ p _ _ => match zget (rom_pcm r) p with Some (Some smp) => [EvPcmStart smp] | _ => [] end
  | DNoteOff VDac _ _ => [EvPcmStop]
  | DDumpPreset prog => map EvTx (preset_message 0x0E prog (instrument r s prog))
  | DDumpChan c n => map EvTx (preset_message 0x10 c (channel_preset s n))
  | DTx data => map EvTx (0xF0 :: data ++ [0xF7])
  | DChange k c key v => [EvMidiChange k c key v]
  | DUi c b => [EvUi c (b2z b)]
  | _ => []
  end.

(** ** State of midi_fm.c after a call *)
Definition fm_after (r : rom) (s : devst) (c : dcall) (n : Z) (x : mfch) : mfch :=
  match c with
  | DNoteOn VFm m p ce v =>
      if (m =? n) && playable p then
        mkMf (if f_perc x then snd (drum r p) else p) ce (f_vol x) v (f_pan x) (f_perc x)
      else x
  | DVolume VFm m v => if m =? n then f_set_vol x v else x
  | DPan VFm m v => if m =? n then f_set_pan x v else x
  | DPitch VFm m p ce => if m =? n then f_set_pc x p ce else x
  | DPerc m b => if m =? n then f_set_perc x b else x
  | DFmReset => mkMf (f_pitch x) 0 127 127 0 false
  | _ => x
  end.
Definition user_after (s : devst) (c : dcall) (n : Z) (x : option preset) : option preset :=
  match c with
  | DStore m p => if m =? n then Some p else x
  | DClear m => if m =? n then None else x
  | DStoreFrom chan m => if m =? n then Some (channel_preset s chan) else x
  | DFmReset => None
  | _ => x
  end.

(** ** Well-formed states *)
Definition fm_ok (c : mfch) : Prop :=
  0 <= f_pitch c < 256 /\ 0 <= f_cents c < 100 /\ seven (f_vol c) /\ seven (f_vel c) /\ seven (f_pan c).
Definition user_ok (u : option preset) : Prop := match u with Some p => SynthSpec.preset_ok p | None => True end.
(** The PSG part, as far as users see it: it behaves. *)
Definition sound_ok (s : devst) : Prop :=
  SynthSpec.synth_ok (v_synth s) /\
  length (v_fm s) = 6%nat /\ Forall fm_ok (v_fm s) /\
  length (v_user s) = 128%nat /\ Forall user_ok (v_user s) /\
  SramSpec.sram_ok (v_sram s) /\ length (v_sm s) = 3%nat.

(** A DAC note beyond the sample table. *)
Definition beyond_samples (c : dcall) : Prop := exists n p ce v, c = DNoteOn VDac n p ce v /\ 128 <= p.
