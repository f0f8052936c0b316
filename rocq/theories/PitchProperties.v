(** C06-C09: pitch arithmetic, pitch bend, FM and PSG frequencies. *)
From Verif Require Import Base PitchModel PitchSpec PitchProofs.

(** C06 *)
Theorem C06_shift_exact :
  forall (pc : pitchcents) (add : Z), 0 <= total pc + add < 25600 ->
    total (pc_shift pc add) = total pc + add /\
    0 <= pc_cents (pc_shift pc add) < 100 /\ 0 <= pc_pitch (pc_shift pc add) <= 255.
Proof. exact pc_shift_exact. Qed.
Print Assumptions C06_shift_exact.

Theorem C06_always_normalised :
  forall (pc : pitchcents) (add : Z),
    0 <= pc_cents (pc_shift pc add) < 100 /\ 0 <= pc_pitch (pc_shift pc add) <= 255.
Proof. exact pc_shift_norm. Qed.
Print Assumptions C06_always_normalised.

Example C06_nonvacuous : pc_shift (mkPc 60 90) 50 = mkPc 61 40 /\ pc_shift (mkPc 60 0) (-5) = mkPc 59 95.
Proof. split; reflexivity. Qed.

(** C07: when the bent note stays on the scale, the centre changes nothing, the
    bend is monotone and bounded by the range, and the lowest bend reaches the
    range exactly. Missing: notes closer to 0 than the bend range. *)
Theorem C07_bend_partial :
  forall (pitch cents : Z) (range : pitchcents),
    0 <= cents < 100 -> 0 <= total range <= 32767 ->
    total range <= pitch * 100 + cents -> pitch * 100 + cents + total range < 25600 ->
    total (pc_bend pitch cents 8192 range) = pitch * 100 + cents /\
    (forall b1 b2, 0 <= b1 -> b1 <= b2 -> b2 <= 16383 ->
       total (pc_bend pitch cents b1 range) <= total (pc_bend pitch cents b2 range)) /\
    (forall b, 0 <= b <= 16383 ->
       Z.abs (total (pc_bend pitch cents b range) - (pitch * 100 + cents)) <= total range) /\
    total (pc_bend pitch cents 0 range) = pitch * 100 + cents - total range.
Proof. exact pc_bend_partial_lemma. Qed.
Print Assumptions C07_bend_partial.

(** Bending note 0 down with the default range of two semitones raises it by
    more than ten octaves: the arithmetic wraps below zero. *)
Theorem C07_bend_refuted :
  exists pitch bend, 0 <= pitch <= 127 /\ 0 <= bend <= 8192 /\
    total (pc_bend pitch 0 bend (mkPc 2 0)) > total (pc_bend pitch 0 8192 (mkPc 2 0)) + 12700.
Proof. exact bend_wraps. Qed.
Print Assumptions C07_bend_refuted.

Example C07_nonvacuous :
  pc_bend 60 0 12288 (mkPc 2 0) = mkPc 61 0 /\ pc_bend 60 0 0 (mkPc 12 0) = mkPc 48 0 /\
  total (mkPc 12 0) <= 60 * 100 + 0 /\ 60 * 100 + 0 + total (mkPc 12 0) < 25600.
Proof. vm_compute. intuition congruence. Qed.

(** C08 *)
Theorem C08_fields_fit :
  forall (pal : bool) (p c : Z), 11 <= p <= 106 -> 0 <= c < 100 ->
    exists f, pitch_cents_to_freq_num pal p c = Some f /\
              0 <= f < 2048 /\ 0 <= pitch_to_octave p < 8.
Proof. exact fm_fields. Qed.
Print Assumptions C08_fields_fit.

Theorem C08_monotone :
  forall (pal : bool) (x y : Z), 1100 <= x -> x <= y -> y <= 10699 ->
    fm_freq pal x <= fm_freq pal y.
Proof. exact fm_freq_mono. Qed.
Print Assumptions C08_monotone.

Theorem C08_octave :
  forall (pal : bool) (p c : Z), 11 <= p <= 94 -> 0 <= c < 100 ->
    pitch_cents_to_freq_num pal (p + 12) c = pitch_cents_to_freq_num pal p c /\
    pitch_to_octave (p + 12) = pitch_to_octave p + 1.
Proof. exact fm_octave_up. Qed.
Print Assumptions C08_octave.

Example C08_nonvacuous :
  pitch_cents_to_freq_num false 69 0 = Some 1081 /\ pitch_to_octave 69 = 4 /\
  fm_freq false 6900 = 17296 /\ fm_freq false 6950 = 17808.
Proof. repeat split; vm_compute; reflexivity. Qed.

(** C09 *)
Theorem C09_fits :
  forall (pal : bool) (p c : Z), 0 <= p <= 255 -> 0 <= c < 100 ->
    exists x, tone_from_pitch_cents pal (mkPc p c) = Some x /\ 0 < x < 1024.
Proof. exact tone_range. Qed.
Print Assumptions C09_fits.

(** Missing for the full statement: pitch 255 with non-zero cents. *)
Theorem C09_monotone_partial :
  forall (pal : bool) (x y : Z), 0 <= x -> x <= y -> y <= 25499 ->
    psg_tone pal y <= psg_tone pal x.
Proof. exact psg_tone_antitone. Qed.
Print Assumptions C09_monotone_partial.

Theorem C09_clamped_partial :
  forall (pal : bool) (p c : Z), 0 <= c < 100 -> (0 <= p < 44 \/ 127 <= p <= 254) ->
    tone_from_pitch_cents pal (mkPc p c) = tone_for_midi_key pal (if p <? 45 then 45 else 127).
Proof. exact tone_clamp. Qed.
Print Assumptions C09_clamped_partial.

(** At pitch 255 the next semitone wraps to key 0 and the period jumps up. *)
Theorem C09_monotone_refuted :
  forall pal : bool, exists t, 0 <= t < 25599 /\ psg_tone pal (t + 1) > psg_tone pal t.
Proof. exact psg_tone_wraps. Qed.
Print Assumptions C09_monotone_refuted.

Example C09_nonvacuous : psg_tone false 6900 = 254 /\ psg_tone false 6950 = 247 /\ psg_tone true 6900 = 251.
Proof. repeat split; vm_compute; reflexivity. Qed.
