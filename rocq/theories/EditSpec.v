(** What a player expects of the messages that edit sounds: the controllers for
    the parameters of the FM chip, raw register writes, the sample channel and the
    voices of special mode. *)
From Verif Require Import Base SynthModel MidiModel DevModel AppModel.
From Verif Require SynthSpec MidiSpec PitchSpec SoundSpec.

(** ** Parameters of the FM chip *)
(** What can be edited: per channel, per operator of a channel, and the LFO all
    channels share. *)
Inductive field : Type :=
| FAlgorithm (n : Z) | FFeedback (n : Z) | FOutputs (n : Z) | FAms (n : Z) | FFms (n : Z)
| FMultiple (n o : Z) | FDetune (n o : Z) | FAttack (n o : Z) | FScaling (n o : Z) | FDecay (n o : Z) | FAmMod (n o : Z)
| FSustain (n o : Z) | FRelease (n o : Z) | FSustainLevel (n o : Z) | FSsg (n o : Z)
| FLfo | FLfoSpeed.
(** The fields there are: six channels of four operators. *)
Definition present (f : field) : Prop :=
  match f with
  | FAlgorithm n | FFeedback n | FOutputs n | FAms n | FFms n => 0 <= n < 6
  | FMultiple n o | FDetune n o | FAttack n o | FScaling n o | FDecay n o | FAmMod n o
  | FSustain n o | FRelease n o | FSustainLevel n o | FSsg n o => 0 <= n < 6 /\ 0 <= o < 4
  | FLfo | FLfoSpeed => True
  end.
(** Where the YM2612 manual puts them. *)
Definition field_read (f : field) (r : SynthSpec.ymfile) : option Z :=
  match f with
  | FAlgorithm n => SynthSpec.chip_alg r n | FFeedback n => SynthSpec.chip_fb r n | FOutputs n => SynthSpec.chip_st r n
  | FAms n => SynthSpec.chip_ams r n | FFms n => SynthSpec.chip_fms r n
  | FMultiple n o => SynthSpec.chip_mul r n o | FDetune n o => SynthSpec.chip_dt r n o
  | FAttack n o => SynthSpec.chip_ar r n o | FScaling n o => SynthSpec.chip_rs r n o
  | FDecay n o => SynthSpec.chip_dr r n o | FAmMod n o => SynthSpec.chip_am r n o
  | FSustain n o => SynthSpec.chip_sr r n o | FRelease n o => SynthSpec.chip_rr r n o
  | FSustainLevel n o => SynthSpec.chip_sl r n o | FSsg n o => SynthSpec.chip_ssg r n o
  | FLfo => SynthSpec.chip_lfoen r | FLfoSpeed => SynthSpec.chip_lfofreq r
  end.
(** Bits of a field. *)
Definition field_bits (f : field) : Z :=
  match f with
  | FAlgorithm _ | FFeedback _ | FFms _ | FDetune _ _ | FLfoSpeed => 3
  | FOutputs _ | FAms _ | FScaling _ _ => 2
  | FMultiple _ _ | FRelease _ _ | FSustainLevel _ _ | FSsg _ _ => 4
  | FAttack _ _ | FDecay _ _ | FSustain _ _ => 5
  | FAmMod _ _ | FLfo => 1
  end.

(** ** The controllers (the table of the manual) *)
(** What controller [k] edits on FM channel [n]. *)
Definition edits (k n : Z) : option field :=
  if k =? 14 then Some (FAlgorithm n) else if k =? 15 then Some (FFeedback n)
  else if (20 <=? k) && (k <=? 23) then Some (FMultiple n (k - 20))
  else if (24 <=? k) && (k <=? 27) then Some (FDetune n (k - 24))
  else if (39 <=? k) && (k <=? 42) then Some (FScaling n (k - 39))
  else if (43 <=? k) && (k <=? 46) then Some (FAttack n (k - 43))
  else if (47 <=? k) && (k <=? 50) then Some (FDecay n (k - 47))
  else if (51 <=? k) && (k <=? 54) then Some (FSustain n (k - 51))
  else if (55 <=? k) && (k <=? 58) then Some (FSustainLevel n (k - 55))
  else if (59 <=? k) && (k <=? 62) then Some (FRelease n (k - 59))
  else if (70 <=? k) && (k <=? 73) then Some (FAmMod n (k - 70))
  else if (90 <=? k) && (k <=? 93) then Some (FSsg n (k - 90))
  else if k =? 74 then Some FLfo else if k =? 1 then Some FLfoSpeed
  else if k =? 75 then Some (FFms n) else if k =? 76 then Some (FAms n) else if k =? 77 then Some (FOutputs n)
  else None.
(** What a dial at [v] of 0..127 sets a field of [b] bits to: equal shares of the
    dial. (The sustain rate, five bits wide, only gets the lower half of its
    range: C47_refuted.) *)
Definition dial (f : field) (v : Z) : Z :=
  v * 2 ^ (match f with FSustain _ _ => 4 | _ => field_bits f end) / 128.

(** ** Options of the interface, from the messages received *)
(** The sound-editing controllers are on until SysEx command 4 turns them off, and
    on again after a System Reset. *)
Definition editing (ms : list mop) : bool :=
  fold_left (fun b m =>
    match m with
    | MSysex [x; y; z; cmd; a] => if (x =? 0x00) && (y =? 0x22) && (z =? 0x77) && (cmd =? 0x04) then negb (a =? 0) else b
    | MReset => true
    | _ => b
    end) ms true.

(** Levels of the chip are attenuations: 0 is loudest. SysEx command 7 makes the level
    controllers (16 to 19, one per operator) run the other way; a System Reset ends
    that. *)
Definition levels_inverted (ms : list mop) : bool :=
  fold_left (fun b m =>
    match m with
    | MSysex [x; y; z; cmd; a] => if (x =? 0x00) && (y =? 0x22) && (z =? 0x77) && (cmd =? 0x07) then negb (a =? 0) else b
    | MReset => false
    | _ => b
    end) ms false.
Definition told_level (ms : list mop) (v : Z) : Z := if levels_inverted ms then 127 - v else v.

(** ** Raw register writes *)
(** The writes to the FM chip in a trace: part, register and data. *)
Definition ym_writes (o : list event) : list (Z * Z * Z) := flat_map (fun e => match e with EvYm p g d => [(p, g, d)] | _ => [] end) o.
Definition nibble (x : Z) : Prop := 0 <= x < 16.
(** SysEx command 8 writes to part 0 of the chip, 9 to part 1: the register and the
    data as two nibbles each. *)
Definition raw_message (part reg data : Z) : mop :=
  MidiSpec.own_sysex (8 + part) [reg / 16; reg mod 16; data / 16; data mod 16].

(** ** The sample channel *)
(** Controller 78 turns the sixth channel into one that plays samples: on from 64.
    It is obeyed on any channel that serves a voice while the sound-editing
    controllers are on. Reset All Controllers on the sixth channel and a System
    Reset make it an FM channel again. (Fixed assignment of channels to voices.) *)
Record samp := mkSamp { sa_edit : bool; sa_on : bool }.
Definition samp_after (s : samp) (m : mop) : samp :=
  match m with
  | MCc c k v =>
      if (k =? 78) && (c <? 13) && sa_edit s then mkSamp (sa_edit s) (64 <=? v)
      else if (k =? 121) && (c =? 5) then mkSamp (sa_edit s) false else s
  | MSysex [x; y; z; cmd; a] =>
      if (x =? 0x00) && (y =? 0x22) && (z =? 0x77) && (cmd =? 0x04) then mkSamp (negb (a =? 0)) (sa_on s) else s
  | MReset => mkSamp true false
  | _ => s
  end.
Definition sampling (ms : list mop) : bool := sa_on (fold_left samp_after ms (mkSamp true false)).
(** What a key starts: its sample, if it has one. *)
Definition sample_start (r : rom) (key : Z) : list event :=
  match nth (Z.to_nat key) (rom_pcm r) None with Some smp => [EvPcmStart smp] | None => [] end.
(** A sample was started and not stopped since. *)
Definition sample_playing (tr : list event) : bool :=
  fold_left (fun b e => match e with EvPcmStart _ => true | EvPcmStop => false | _ => b end) tr false.
(** The chip takes the sixth channel's output from the samples, not from its FM
    voice: bit 7 of register 0x2B. *)
Definition dac_selected (r : SynthSpec.ymfile) : bool :=
  match r 0 0x2B with Some d => (d / 128) mod 2 =? 1 | None => false end.

(** ** The voices of special mode *)
(** Octave and frequency number of operator [q] of the third channel. *)
Definition special_freq (r : SynthSpec.ymfile) (q : Z) : option (Z * Z) :=
  match r 0 (fst (SynthSpec.special_regs q)), r 0 (snd (SynthSpec.special_regs q)) with
  | Some hi, Some lo => Some ((hi / 8) mod 8, (hi mod 8) * 256 + lo)
  | _, _ => None
  end.
(** What a special-mode note may write: its two frequency registers and the level
    of its operator. *)
Definition special_write (q : Z) (w : Z * Z * Z) : Prop :=
  fst (fst w) = 0 /\ (snd (fst w) = fst (SynthSpec.special_regs q) \/ snd (fst w) = snd (SynthSpec.special_regs q) \/ snd (fst w) = SynthSpec.oper_reg 64 2 q).
