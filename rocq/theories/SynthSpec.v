(** Independent view of the YM2612 and of the Z80 bus, computed from the
    event trace alone (register layout as in the YM2612 manual). *)
From Verif Require Import Base SynthModel.

(** ** Register file: last byte written to each (part, register). *)
Definition ymfile := Z -> Z -> option Z.
Definition ym_step (r : ymfile) (e : event) : ymfile :=
  match e with
  | EvYm p g d => fun p' g' => if (p' =? p) && (g' =? g) then Some d else r p' g'
  | _ => r
  end.
Definition ym_regs (tr : list event) : ymfile := fold_left ym_step tr (fun _ _ => None).

(** Bits [lo .. lo+w-1] of a register. *)
Definition fld (r : ymfile) (part reg lo w : Z) : option Z :=
  match r part reg with Some d => Some ((d / 2 ^ lo) mod 2 ^ w) | None => None end.

(** Channels 0..2 are in part 0, 3..5 in part 1. The four operators of a
    channel are at offsets 0, 8, 4, 12. *)
Definition part_of (c : Z) : Z := c / 3.
Definition op_off (o : Z) : Z :=
  match o with 0 => 0 | 1 => 8 | 2 => 4 | _ => 12 end.
Definition chan_reg (base c : Z) : Z := base + c mod 3.
Definition oper_reg (base c o : Z) : Z := base + op_off o + c mod 3.

Definition chip_alg r c := fld r (part_of c) (chan_reg 0xB0 c) 0 3.
Definition chip_fb r c := fld r (part_of c) (chan_reg 0xB0 c) 3 3.
Definition chip_st r c := fld r (part_of c) (chan_reg 0xB4 c) 6 2.
Definition chip_ams r c := fld r (part_of c) (chan_reg 0xB4 c) 4 2.
Definition chip_fms r c := fld r (part_of c) (chan_reg 0xB4 c) 0 3.
Definition chip_mul r c o := fld r (part_of c) (oper_reg 0x30 c o) 0 4.
Definition chip_dt r c o := fld r (part_of c) (oper_reg 0x30 c o) 4 3.
Definition chip_tl r c o := fld r (part_of c) (oper_reg 0x40 c o) 0 7.
Definition chip_ar r c o := fld r (part_of c) (oper_reg 0x50 c o) 0 5.
Definition chip_rs r c o := fld r (part_of c) (oper_reg 0x50 c o) 6 2.
Definition chip_dr r c o := fld r (part_of c) (oper_reg 0x60 c o) 0 5.
Definition chip_am r c o := fld r (part_of c) (oper_reg 0x60 c o) 7 1.
Definition chip_sr r c o := fld r (part_of c) (oper_reg 0x70 c o) 0 5.
Definition chip_rr r c o := fld r (part_of c) (oper_reg 0x80 c o) 0 4.
Definition chip_sl r c o := fld r (part_of c) (oper_reg 0x80 c o) 4 4.
Definition chip_ssg r c o := fld r (part_of c) (oper_reg 0x90 c o) 0 4.
Definition chip_lfoen (r : ymfile) := fld r 0 0x22 3 1.
Definition chip_lfofreq (r : ymfile) := fld r 0 0x22 0 3.
Definition chip_special (r : ymfile) := fld r 0 0x27 6 1.
Definition chip_dac (r : ymfile) := fld r 0 0x2B 7 1.

Definition op_mirrored (r : ymfile) (c o : Z) (x : operator) : Prop :=
  chip_mul r c o = Some (o_mul x) /\ chip_dt r c o = Some (o_dt x) /\
  chip_ar r c o = Some (o_ar x) /\ chip_rs r c o = Some (o_rs x) /\
  chip_dr r c o = Some (o_dr x) /\ chip_am r c o = Some (o_am x) /\
  chip_sr r c o = Some (o_sr x) /\ chip_rr r c o = Some (o_rr x) /\
  chip_sl r c o = Some (o_sl x) /\ chip_ssg r c o = Some (o_ssg x).

Definition chan_mirrored (r : ymfile) (c : Z) (x : fmchan) : Prop :=
  chip_alg r c = Some (c_alg x) /\ chip_fb r c = Some (c_fb x) /\
  chip_st r c = Some (c_st x) /\ chip_ams r c = Some (c_ams x) /\
  chip_fms r c = Some (c_fms x) /\
  (forall o, 0 <= o < 4 -> exists y, zget (c_ops x) o = Some y /\ op_mirrored r c o y).

Definition global_mirrored (r : ymfile) (s : synth) : Prop :=
  chip_lfoen r = Some (s_lfoen s) /\ chip_lfofreq r = Some (s_lfofreq s) /\
  chip_special r = Some (b2z (s_special s)) /\ chip_dac r = Some (b2z (s_dac s)).

(** ** Output operators (carriers) of the eight YM2612 algorithms. *)
Definition carriers (alg : Z) : list Z :=
  match alg with
  | 0 | 1 | 2 | 3 => [3]
  | 4 => [1; 3]
  | 5 | 6 => [1; 2; 3]
  | _ => [0; 1; 2; 3]
  end.
Definition carrier (alg o : Z) : Prop := In o (carriers alg).

(** Level law: attenuation scaled by the loudness of the channel volume. *)
Definition scaled_level (vol tl : Z) : Z :=
  127 - (127 - tl) * (127 - nth (Z.to_nat vol) VOLUME_TO_TOTAL_LEVELS 127) / 127.

(** ** Frequency: the high byte is latched and takes effect with the low byte. *)
Record yfreq := mkYf { yf_latch : Z; yf_freq : Z -> option (Z * Z) }.
Definition yf_step (y : yfreq) (e : event) : yfreq :=
  match e with
  | EvYm p g d =>
      if (0xA4 <=? g) && (g <=? 0xA6) then mkYf d (yf_freq y)
      else if (0xA0 <=? g) && (g <=? 0xA2) then
        mkYf (yf_latch y) (fun c => if c =? 3 * p + (g - 0xA0)
                                    then Some (yf_latch y, d) else yf_freq y c)
      else y
  | _ => y
  end.
Definition yf_run (tr : list event) : yfreq := fold_left yf_step tr (mkYf 0 (fun _ => None)).
(** Block (octave) and 11-bit frequency number in force. *)
Definition chip_freq (tr : list event) (c : Z) : option (Z * Z) :=
  match yf_freq (yf_run tr) c with
  | Some (hi, lo) => Some ((hi / 8) mod 8, (hi mod 8) * 256 + lo)
  | None => None
  end.

(** ** Which channel does a write belong to? *)
Definition owner (reg data : Z) (part : Z) : option Z :=
  if reg =? 0x28 then
    (if (part =? 0) && (data mod 4 <? 3) then Some (3 * ((data / 4) mod 2) + data mod 4) else None)
  else if (0x30 <=? reg) && (reg <? 0xA8) || (0xB0 <=? reg) && (reg <? 0xB8) then
    (if reg mod 4 <? 3 then Some (3 * part + reg mod 4) else None)
  else None.
(** ... and which operator. *)
Definition owner_op (reg : Z) : option Z :=
  if (0x30 <=? reg) && (reg <? 0xA0) then
    match (reg / 4) mod 4 with 0 => Some 0 | 1 => Some 2 | 2 => Some 1 | _ => Some 3 end
  else None.

(** ** Key state of a channel: the last write to register 0x28 naming it. *)
Definition key_step (c : Z) (k : option bool) (e : event) : option bool :=
  match e with
  | EvYm p g d =>
      if (p =? 0) && (g =? 0x28) && (match owner g d p with Some c' => c' =? c | None => false end)
      then Some (0 <? d / 16) else k
  | _ => k
  end.
Definition key_state (tr : list event) (c : Z) : option bool := fold_left (key_step c) tr None.

(** ** Z80 bus *)
Definition bus_step (b : bool) (e : event) : bool :=
  match e with EvZ80Req => true | EvZ80Rel => false | EvZ80Load _ => false | _ => b end.
Definition bus_after (tr : list event) : bool := fold_left bus_step tr false.
(** Every YM2612 access in the trace happens while the bus is held. *)
Definition ym_access (e : event) : Prop :=
  match e with EvYm _ _ _ | EvYmLatch _ _ => True | _ => False end.
Definition bus_safe (tr : list event) : Prop :=
  forall t1 e t2, tr = t1 ++ e :: t2 -> ym_access e -> bus_after t1 = true.
(** Address left latched in the chip for the PCM driver's data writes. *)
Definition latch_step (a : option Z) (e : event) : option Z :=
  match e with EvYm _ g _ => Some g | EvYmLatch _ d => Some d | _ => a end.
Definition latched (tr : list event) : option Z := fold_left latch_step tr None.

(** ** Well-formed values and arguments *)
Definition op_ok (o : operator) : Prop :=
  0 <= o_mul o < 16 /\ 0 <= o_dt o < 8 /\ 0 <= o_ar o < 32 /\ 0 <= o_rs o < 4 /\
  0 <= o_dr o < 32 /\ 0 <= o_am o < 2 /\ 0 <= o_sl o < 16 /\ 0 <= o_sr o < 32 /\
  0 <= o_rr o < 16 /\ 0 <= o_tl o < 128 /\ 0 <= o_ssg o < 16.
Definition chan_ok (c : fmchan) : Prop :=
  0 <= c_alg c < 8 /\ 0 <= c_fb c < 8 /\ 0 <= c_st c < 4 /\ 0 <= c_ams c < 4 /\
  0 <= c_fms c < 8 /\ 0 <= c_oct c < 8 /\ 0 <= c_freq c < 2048 /\
  length (c_ops c) = 4%nat /\ Forall op_ok (c_ops c).
Definition preset_ok (p : preset) : Prop :=
  0 <= p_alg p < 8 /\ 0 <= p_fb p < 8 /\ 0 <= p_ams p < 4 /\ 0 <= p_fms p < 8 /\
  length (p_ops p) = 4%nat /\ Forall op_ok (p_ops p).
Definition synth_ok (s : synth) : Prop :=
  0 <= s_lfoen s < 2 /\ 0 <= s_lfofreq s < 8 /\
  length (s_chans s) = 6%nat /\ Forall chan_ok (s_chans s) /\
  length (s_vols s) = 6%nat /\ Forall (fun v => 0 <= v < 128) (s_vols s).

Definition is_u8 (x : Z) : Prop := 0 <= x < 256.
Definition is_ch (c : Z) : Prop := 0 <= c < 6.
Definition is_op (o : Z) : Prop := 0 <= o < 4.

(** Calls whose arguments are legal for the C signatures and array sizes. *)
Definition sop_ok (op : sop) : Prop :=
  match op with
  | SInit p => preset_ok p
  | SNoteOn c | SNoteOff c => is_ch c
  | SPitch c o f => is_ch c /\ is_u8 o /\ 0 <= f < 65536
  | SVolume c v => is_ch c /\ 0 <= v < 128
  | SStereo c v | SAlgorithm c v | SFeedback c v | SAms c v | SFms c v => is_ch c /\ is_u8 v
  | STotalLevel c o v | SMultiple c o v | SDetune c o v | SRateScaling c o v
  | SAttackRate c o v | SDecayRate c o v | SSustainRate c o v | SSustainLevel c o v
  | SAmpMod c o v | SReleaseRate c o v | SSsgEg c o v => is_ch c /\ is_op o /\ is_u8 v
  | SEnableLfo v | SLfoFrequency v => is_u8 v
  | SPreset c p => is_ch c /\ preset_ok p
  | SCallback _ | SSpecialMode _ | SDac _ => True
  | SSpecialPitch o oct f => 0 <= o < 3 /\ is_u8 oct /\ 0 <= f < 65536
  | SSpecialVolume o v => is_op o /\ 0 <= v < 128
  | SDirect p r d => 0 <= p < 2 /\ is_u8 r /\ is_u8 d
  end.

(** Registers that hold a parameter managed by the synthesizer. *)
Definition managed (part reg : Z) : Prop :=
  (part = 0 /\ (reg = 0x22 \/ reg = 0x27 \/ reg = 0x2B)) \/
  (0x30 <= reg < 0xA8) \/ (0xB0 <= reg < 0xB8).
(** A user's raw register write may of course desynchronise; histories with
    raw writes to other registers are included. *)
Definition no_raw_clash (op : sop) : Prop :=
  match op with SDirect p r _ => ~ managed p r | _ => True end.
(** Channel an operation is addressed to. *)
Definition sop_chan (op : sop) : option Z :=
  match op with
  | SNoteOn c | SNoteOff c | SPitch c _ _ | SVolume c _ | SStereo c _ | SAlgorithm c _
  | SFeedback c _ | SAms c _ | SFms c _ | STotalLevel c _ _ | SMultiple c _ _ | SDetune c _ _
  | SRateScaling c _ _ | SAttackRate c _ _ | SDecayRate c _ _ | SSustainRate c _ _
  | SSustainLevel c _ _ | SAmpMod c _ _ | SReleaseRate c _ _ | SSsgEg c _ _ | SPreset c _ => Some c
  | SSpecialVolume _ _ => Some 2
  | _ => None
  end.
Definition sop_oper (op : sop) : option Z :=
  match op with
  | STotalLevel _ o _ | SMultiple _ o _ | SDetune _ o _ | SRateScaling _ o _
  | SAttackRate _ o _ | SDecayRate _ o _ | SSustainRate _ o _ | SSustainLevel _ o _
  | SAmpMod _ o _ | SReleaseRate _ o _ | SSsgEg _ o _ | SSpecialVolume o _ => Some o
  | _ => None
  end.

(** Level expected in the chip for an operator. *)
Definition is_carrier (alg o : Z) : bool := existsb (Z.eqb o) (carriers alg).
Definition expected_level (alg vol o tl : Z) : Z :=
  if is_carrier alg o then scaled_level vol tl else tl.

(** Chip field set by a parameter setter, and the value it must get. *)
Definition set_field (op : sop) : option ((ymfile -> option Z) * Z) :=
  match op with
  | SAlgorithm c v => Some (fun r => chip_alg r c, v mod 8)
  | SFeedback c v => Some (fun r => chip_fb r c, v mod 8)
  | SStereo c v => Some (fun r => chip_st r c, v mod 4)
  | SAms c v => Some (fun r => chip_ams r c, v mod 4)
  | SFms c v => Some (fun r => chip_fms r c, v mod 8)
  | SMultiple c o v => Some (fun r => chip_mul r c o, v mod 16)
  | SDetune c o v => Some (fun r => chip_dt r c o, v mod 8)
  | SRateScaling c o v => Some (fun r => chip_rs r c o, v mod 4)
  | SAttackRate c o v => Some (fun r => chip_ar r c o, v mod 32)
  | SDecayRate c o v => Some (fun r => chip_dr r c o, v mod 32)
  | SSustainRate c o v => Some (fun r => chip_sr r c o, v mod 32)
  | SSustainLevel c o v => Some (fun r => chip_sl r c o, v mod 16)
  | SAmpMod c o v => Some (fun r => chip_am r c o, v mod 2)
  | SReleaseRate c o v => Some (fun r => chip_rr r c o, v mod 16)
  | SSsgEg c o v => Some (fun r => chip_ssg r c o, v mod 16)
  | SEnableLfo v => Some (chip_lfoen, v mod 2)
  | SLfoFrequency v => Some (chip_lfofreq, v mod 8)
  | SSpecialMode b => Some (chip_special, b2z b)
  | SDac b => Some (chip_dac, b2z b)
  | _ => None
  end.

(** Operations that may legitimately change which notes sound. *)
Definition keying (op : sop) : Prop :=
  match op with SNoteOn _ | SNoteOff _ | SInit _ | SDirect _ _ _ => True | _ => False end.

(** Channel-3 special mode: frequency registers of operators 0, 1, 2
    (high byte, low byte), as in the YM2612 manual. *)
Definition special_regs (o : Z) : Z * Z :=
  match o with 0 => (0xAD, 0xA9) | 1 => (0xAE, 0xAA) | _ => (0xAC, 0xA8) end.

(** Histories in which the level of operators is never changed behind the
    back of the volume logic. *)
Definition level_safe (op : sop) : Prop :=
  match op with SAlgorithm _ _ | SSpecialVolume _ _ => False | _ => True end.

(** What a user expects of a level law [L algorithm volume operator preset_level]
    (levels are attenuations: 0 loudest, 127 silent). *)
Definition loudness_law (L : Z -> Z -> Z -> Z -> Z) : Prop :=
  (forall alg o tl, 0 <= tl < 128 -> L alg 127 o tl = tl) /\
  (forall alg o tl, carrier alg o -> 0 <= tl < 128 -> L alg 0 o tl = 127) /\
  (forall alg v w o tl, 0 <= v <= w -> w < 128 -> 0 <= tl < 128 -> L alg w o tl <= L alg v o tl) /\
  (forall alg v o tl, ~ carrier alg o -> L alg v o tl = tl) /\
  (forall alg v o tl, 0 <= v < 128 -> 0 <= tl < 128 -> tl <= L alg v o tl <= 127).

(** Concrete presets for examples. *)
Definition demo_op (tl : Z) : operator := mkOp 1 3 31 1 5 0 2 7 4 tl 0.
Definition demo_preset (alg : Z) : preset := mkPreset alg 5 1 2 [demo_op 20; demo_op 30; demo_op 40; demo_op 50].

(** ** Parameter notifications (the callback the FM editor screen relies on):
    which (channel, kind) pairs were notified, kind 0 = channel, 1 = LFO,
    2 = special mode. *)
Definition notified (o : list event) : list (Z * Z) :=
  flat_map (fun e => match e with EvParam c k => [(c, k)] | _ => [] end) o.
(** One notification per change of a displayed parameter, naming its channel. *)
Definition notify (op : sop) (s : synth) : list (Z * Z) :=
  match op with
  | STotalLevel c o v =>
      match zget (s_chans s) c with
      | Some ch => match zget (c_ops ch) o with Some x => if o_tl x =? v then [] else [(c, 0)] | None => [] end
      | None => [] end
  | SStereo c _ | SAlgorithm c _ | SFeedback c _ | SAms c _ | SFms c _ | SMultiple c _ _ | SDetune c _ _
  | SRateScaling c _ _ | SAttackRate c _ _ | SDecayRate c _ _ | SSustainRate c _ _
  | SSustainLevel c _ _ | SAmpMod c _ _ | SReleaseRate c _ _ | SSsgEg c _ _ | SPreset c _ => [(c, 0)]
  | SEnableLfo _ | SLfoFrequency _ => [(0, 1)]
  | SSpecialMode _ => [(0, 2)]
  | _ => []
  end.
