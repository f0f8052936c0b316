(** Pitches as a total in cents, and the quantities the sound chips realise. *)
From Verif Require Import Base PitchModel.

Definition total (pc : pitchcents) : Z := pc_pitch pc * 100 + pc_cents pc.

(** Ideal bend in cents (truncated towards zero) for a range in cents. *)
Definition bend_cents (bend range : Z) : Z := Z.quot ((bend - 8192) * range) 8192.

(** Oscillator frequency (up to the chip's constant factor) of the total [t]. *)
Definition fm_freq (pal : bool) (t : Z) : Z :=
  match pitch_cents_to_freq_num pal (t / 100) (t mod 100) with
  | Some f => f * 2 ^ pitch_to_octave (t / 100)
  | None => -1
  end.

(** Tone period of the total [t]. *)
Definition psg_tone (pal : bool) (t : Z) : Z :=
  match tone_from_pitch_cents pal (mkPc (t / 100) (t mod 100)) with
  | Some x => x
  | None => 100000
  end.

