(** What players rely on when they listen: kinds of messages, percussion, and the
    sound an FM channel of the chip is set to. *)
From Verif Require Import Base PitchModel SynthModel MidiModel DevModel DevSpec AppModel AppSpec.
From Verif Require SynthSpec MidiSpec PitchSpec.
Import SynthSpec.

(** Controllers that change an FM channel's instrument (all FM parameter
    controllers but those of the LFO). *)
Definition edits_fm (m : mop) : Prop :=
  exists c k v, m = MCc c k v /\ MidiSpec.is_fm_controller k /\ k <> 1 /\ k <> 74.
(** A note for one of the operators of special mode (channels 11 to 13). *)
Definition sm_note (m : mop) : Prop := exists c p v, m = MNoteOn c p v /\ 10 <= c <= 12.

(** Percussion (channel 10) only in General MIDI mode, and no further General MIDI
    reset once percussion has been played, unless by way of a System Reset.
    0: start; 1: General MIDI mode; 2: percussion was played in it. *)
Definition drum_phase (k : option Z) (m : mop) : option Z :=
  match k with
  | None => None
  | Some k =>
      match m with
      | MReset => Some 0
      | MNoteOn c _ v => if (c =? 9) && negb (v =? 0) then (if k =? 0 then None else Some 2) else Some k
      | MSysex data => if MidiSpec.is_gm_reset data then (if k =? 2 then None else Some 1) else Some k
      | _ => Some k
      end
  end.
Definition drums_in_order (ms : list mop) : Prop := fold_left drum_phase ms (Some 0) <> None.

(** FM channel [n] of the chip is set to instrument [p]: everything but the total
    levels, which depend on the volume. *)
Definition plays_preset (regs : ymfile) (n : Z) (p : preset) : Prop :=
  chip_alg regs n = Some (p_alg p) /\ chip_fb regs n = Some (p_fb p) /\
  chip_ams regs n = Some (p_ams p) /\ chip_fms regs n = Some (p_fms p) /\
  (forall o, 0 <= o < 4 -> exists x, zget (p_ops p) o = Some x /\ op_mirrored regs n o x).
(** Its total levels are those of instrument [p] at volume [v]. *)
Definition plays_level (regs : ymfile) (n : Z) (p : preset) (v : Z) : Prop :=
  forall o, 0 <= o < 4 -> exists x, zget (p_ops p) o = Some x /\
    chip_tl regs n o = Some (expected_level (p_alg p) v o (o_tl x)).

(** Level of an operator for channel volume and velocity, and the law it obeys. *)
Definition played_level (alg vol vel o tl : Z) : Z := expected_level alg (loudness vol vel) o tl.
Definition playing_law (L : Z -> Z -> Z -> Z -> Z -> Z) : Prop :=
  (forall alg o tl, 0 <= tl < 128 -> L alg 127 127 o tl = tl) /\
  (forall alg v o tl, carrier alg o -> 0 <= v < 128 -> 0 <= tl < 128 -> L alg 0 v o tl = 127 /\ L alg v 0 o tl = 127) /\
  (forall alg v v' w w' o tl, 0 <= v <= v' -> v' < 128 -> 0 <= w <= w' -> w' < 128 -> 0 <= tl < 128 -> L alg v' w' o tl <= L alg v w o tl) /\
  (forall alg v w o tl, ~ carrier alg o -> L alg v w o tl = tl) /\
  (forall alg v w o tl, 0 <= v < 128 -> 0 <= w < 128 -> 0 <= tl < 128 -> tl <= L alg v w o tl <= 127).

(** ** Which channel of a chip a write belongs to *)
Definition of_fm (n : Z) (e : event) : Prop := match e with EvYm p g d => SynthSpec.owner g d p = Some n | _ => False end.
Definition of_psg (n : Z) (e : event) : Prop := match e with EvPsgTone c _ | EvPsgAtt c _ => c = n | _ => False end.
(** Everything MIDI channel [c] may write in static mode: channels 1 to 6 their FM channel,
    7 to 10 their PSG channel, 11 to 13 the pitch and the level of one operator of FM
    channel 3, the others nothing. *)
Definition own_sound (c : Z) (e : event) : Prop :=
  match e with
  | EvYm p g d =>
      0 <= c < 6 /\ of_fm c e \/
      10 <= c < 13 /\ (of_fm 2 e /\ SynthSpec.owner_op g = Some (c - 10) \/
                       p = 0 /\ (g = fst (SynthSpec.special_regs (c - 10)) \/ g = snd (SynthSpec.special_regs (c - 10))))
  | EvPsgTone n _ | EvPsgAtt n _ => 6 <= c < 10 /\ n = c - 6
  | _ => True
  end.

(** ** Tuning and portamento of a MIDI channel as a player expects them *)
(** Whether the controllers outside General MIDI are obeyed (SysEx command 4); per
    MIDI channel, whether portamento is on (controller 65) and the fine tuning in
    cents (controller 85). *)
Record tuning := mkTune { tn_all : bool; tn_glide : Z -> bool; tn_fine : Z -> Z }.
Definition no_tuning : tuning := mkTune true (fun _ => false) (fun _ => 0).
Definition set_at {A} (f : Z -> A) (c : Z) (x : A) : Z -> A := fun b => if b =? c then x else f b.
Definition tuning_after (t : tuning) (m : mop) : tuning :=
  match m with
  | MCc c k v =>
      if k =? 65 then mkTune (tn_all t) (set_at (tn_glide t) c (64 <=? v)) (tn_fine t)
      else if k =? 85 then mkTune (tn_all t) (tn_glide t) (if tn_all t then set_at (tn_fine t) c (v - 64) else tn_fine t)
      else if k =? 121 then mkTune (tn_all t) (set_at (tn_glide t) c false) (set_at (tn_fine t) c 0)
      else t
  | MReset => no_tuning
  | MSysex data =>
      if MidiSpec.is_gm_reset data then mkTune (tn_all t) (fun _ => false) (fun _ => 0)
      else match data with
           | [a; b; c; d; e] =>
               if (a =? 0x00) && (b =? 0x22) && (c =? 0x77) && (d =? 0x04) then mkTune (negb (e =? 0)) (tn_glide t) (tn_fine t) else t
           | _ => t
           end
  | _ => t
  end.
Definition tuned (ms : list mop) : tuning := fold_left tuning_after ms no_tuning.

(** ** A note as a player expects it *)
(** Octave and frequency number the chip needs for [key] plus [cents]. *)
Definition fm_note (r : rom) (key cents : Z) : Z * Z := (Z.quot (key - 11) 12 mod 8, freq_of r key cents mod 2048).
(** The pitch of key [p] on MIDI channel [c] in cents: bent, without and with the
    fine tuning of the channel. *)
Definition bent (ms : list mop) (c p : Z) : Z :=
  100 * p + PitchSpec.bend_cents (MidiSpec.st_bend (MidiSpec.settings ms c))
    (100 * MidiSpec.st_semis (MidiSpec.settings ms c) + MidiSpec.st_cents (MidiSpec.settings ms c)).
Definition pitched (ms : list mop) (c p : Z) : Z := bent ms c p + tn_fine (tuned ms) c.
