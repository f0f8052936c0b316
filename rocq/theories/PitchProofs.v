From Verif Require Import Base BaseLemmas PitchModel PitchSpec.

(** ** Exactness of pc_shift *)
Lemma pc_shift_exact pc add :
  0 <= total pc + add < 25600 ->
  total (pc_shift pc add) = total pc + add /\
  0 <= pc_cents (pc_shift pc add) < 100 /\ 0 <= pc_pitch (pc_shift pc add) <= 255.
Proof.
  unfold total, pc_shift, u16, u8, s8; cbn. intros H.
  set (x := pc_pitch pc * 100 + pc_cents pc + add) in *.
  rewrite (Z.mod_small x 65536) by lia.
  rewrite (Z.mod_small (x / 100) 256) by lia.
  rewrite (Z.mod_small (x mod 100 + 128) 256) by lia. lia.
Qed.

Lemma pc_shift_norm pc add :
  0 <= pc_cents (pc_shift pc add) < 100 /\ 0 <= pc_pitch (pc_shift pc add) <= 255.
Proof.
  unfold pc_shift, u16, u8, s8; cbn.
  set (x := (pc_pitch pc * 100 + pc_cents pc + add) mod 65536).
  rewrite (Z.mod_small (x mod 100 + 128) 256) by lia. lia.
Qed.

(** ** Bend *)
Lemma bend_cents_bound bend range :
  0 <= bend <= 16383 -> 0 <= range -> - range <= bend_cents bend range <= range.
Proof.
  intros Hb Hr. unfold bend_cents.
  assert (H := Z.quot_rem' ((bend - 8192) * range) 8192).
  destruct (Z_le_gt_dec 8192 bend) as [Hc|Hc].
  - assert (0 <= (bend - 8192) * range) by nia.
    rewrite Z.quot_div_nonneg by lia.
    assert ((bend - 8192) * range <= 8192 * range) by nia.
    lia.
  - assert ((bend - 8192) * range <= 0) by nia.
    assert (- (8192 * range) <= (bend - 8192) * range) by nia.
    replace ((bend - 8192) * range) with (- (- ((bend - 8192) * range))) by lia.
    rewrite Z.quot_opp_l by lia. rewrite Z.quot_div_nonneg by lia. lia.
Qed.

Lemma quot_mono a b c : 0 < c -> a <= b -> Z.quot a c <= Z.quot b c.
Proof. intros; apply Z.quot_le_mono; lia. Qed.

Lemma bend_cents_mono b1 b2 range :
  b1 <= b2 -> 0 <= range -> bend_cents b1 range <= bend_cents b2 range.
Proof. intros H Hr. unfold bend_cents. apply quot_mono; nia. Qed.

Lemma bend_cents_centre range : bend_cents 8192 range = 0.
Proof. unfold bend_cents. replace ((8192 - 8192) * range) with 0 by lia. reflexivity. Qed.

Lemma s16_small x : -32768 <= x < 32768 -> s16 x = x.
Proof. unfold s16; intros. rewrite Z.mod_small; lia. Qed.

Lemma pc_bend_eq pitch cents bend range :
  0 <= bend <= 16383 -> 0 <= total range <= 32767 ->
  pc_bend pitch cents bend range
  = pc_shift (mkPc pitch cents) (bend_cents bend (total range)).
Proof.
  intros Hb Hr. unfold pc_bend. fold (total range).
  rewrite (s16_small (total range)) by lia.
  assert (H := bend_cents_bound bend (total range) Hb ltac:(lia)).
  fold (bend_cents bend (total range)). rewrite s16_small by lia. reflexivity.
Qed.

Lemma pc_bend_exact pitch cents bend range :
  0 <= bend <= 16383 -> 0 <= total range <= 32767 ->
  0 <= pitch * 100 + cents + bend_cents bend (total range) < 25600 ->
  total (pc_bend pitch cents bend range) = pitch * 100 + cents + bend_cents bend (total range).
Proof.
  intros Hb Hr Ht. rewrite pc_bend_eq by assumption.
  destruct (pc_shift_exact (mkPc pitch cents) (bend_cents bend (total range))) as [H _]; auto.
Qed.

Lemma pc_bend_partial_lemma pitch cents range :
  0 <= cents < 100 -> 0 <= total range <= 32767 ->
  total range <= pitch * 100 + cents -> pitch * 100 + cents + total range < 25600 ->
  total (pc_bend pitch cents 8192 range) = pitch * 100 + cents /\
  (forall b1 b2, 0 <= b1 -> b1 <= b2 -> b2 <= 16383 ->
     total (pc_bend pitch cents b1 range) <= total (pc_bend pitch cents b2 range)) /\
  (forall b, 0 <= b <= 16383 ->
     Z.abs (total (pc_bend pitch cents b range) - (pitch * 100 + cents)) <= total range) /\
  total (pc_bend pitch cents 0 range) = pitch * 100 + cents - total range.
Proof.
  intros Hc Hr Hlo Hhi.
  assert (HB : forall b, 0 <= b <= 16383 ->
     total (pc_bend pitch cents b range) = pitch * 100 + cents + bend_cents b (total range)
     /\ - total range <= bend_cents b (total range) <= total range).
  { intros b Hb. assert (Hbb := bend_cents_bound b (total range) Hb ltac:(lia)).
    split; [apply pc_bend_exact; lia|exact Hbb]. }
  repeat split.
  - destruct (HB 8192) as [-> _]; [lia|]. rewrite bend_cents_centre; lia.
  - intros b1 b2 H1 H2 H3. destruct (HB b1) as [-> _]; [lia|].
    destruct (HB b2) as [-> _]; [lia|].
    assert (H := bend_cents_mono b1 b2 (total range) H2 ltac:(lia)). lia.
  - intros b Hb. destruct (HB b Hb) as [-> H]. lia.
  - destruct (HB 0) as [-> _]; [lia|]. unfold bend_cents.
    replace ((0 - 8192) * total range) with (- (total range) * 8192) by lia.
    rewrite Z.quot_mul by lia. lia.
Qed.

(** ** FM frequencies *)
Definition interp (a b c : Z) : Z := a + Z.quot ((b - a) * c) 100.

Lemma interp_0 a b : interp a b 0 = a.
Proof. unfold interp. rewrite Z.mul_0_r. change (Z.quot 0 100) with 0. lia. Qed.

Lemma interp_up a b c d :
  a <= b -> 0 <= c -> c <= d -> d <= 100 -> a <= interp a b c <= interp a b d /\ interp a b d <= b.
Proof.
  intros Hab Hc Hcd Hd. unfold interp.
  assert (0 <= (b - a) * c) by nia. assert ((b - a) * c <= (b - a) * d) by nia.
  assert ((b - a) * d <= (b - a) * 100) by nia.
  rewrite !Z.quot_div_nonneg by lia.
  assert (0 <= (b - a) * c / 100) by (apply Z.div_pos; lia).
  assert ((b - a) * c / 100 <= (b - a) * d / 100) by (apply Z.div_le_mono; lia).
  assert ((b - a) * d / 100 <= (b - a) * 100 / 100) by (apply Z.div_le_mono; lia).
  rewrite Z.div_mul in * by lia. lia.
Qed.

Lemma interp_neg a b c : interp a b c = - interp (- a) (- b) c.
Proof.
  unfold interp. replace ((b - a) * c) with (- ((- b - - a) * c)) by lia.
  rewrite Z.quot_opp_l by lia. lia.
Qed.

Lemma interp_down a b c d :
  b <= a -> 0 <= c -> c <= d -> d <= 100 -> b <= interp a b d <= interp a b c /\ interp a b c <= a.
Proof.
  intros. rewrite (interp_neg a b c), (interp_neg a b d).
  assert (H3 := interp_up (- a) (- b) c d ltac:(lia) ltac:(lia) ltac:(lia) ltac:(lia)). lia.
Qed.

Lemma mono_from_adjacent (f : Z -> Z) a n :
  (forall x, a <= x < a + n -> f x <= f (x + 1)) ->
  forall x y, a <= x -> x <= y -> y <= a + n -> f x <= f y.
Proof.
  intros H x y Hx Hxy Hy.
  remember (Z.to_nat (y - x)) as k eqn:Ek.
  revert y Hxy Hy Ek. induction k as [|k IH]; intros y Hxy Hy Ek.
  - replace y with x by lia. lia.
  - transitivity (f (y - 1)).
    + apply IH; lia.
    + replace y with ((y - 1) + 1) at 2 by lia. apply H; lia.
Qed.

Definition fm_entry (pal : bool) (p : Z) : option (Z * Z) :=
  match lookup_freq_num pal p 0, lookup_freq_num pal p 1 with
  | Some f, Some g => Some (f, g)
  | _, _ => None
  end.

Lemma fm_entry_sweep pal :
  allb 11 96 (fun p => match fm_entry pal p with
    | Some (f, g) => (0 <=? f) && (f <=? g) && (g <? 2048)
                     && (0 <=? pitch_to_octave p) && (pitch_to_octave p <? 8)
    | None => false end) = true.
Proof. destruct pal; vm_compute; reflexivity. Qed.

Lemma fm_next_sweep pal :
  allb 11 95 (fun p => match fm_entry pal p, fm_entry pal (p + 1) with
    | Some (f, g), Some (f', _) =>
        g * 2 ^ pitch_to_octave p <=? f' * 2 ^ pitch_to_octave (p + 1)
    | _, _ => false end) = true.
Proof. destruct pal; vm_compute; reflexivity. Qed.

Lemma fm_interp pal p c :
  11 <= p <= 106 -> 0 <= c < 100 ->
  exists f g, fm_entry pal p = Some (f, g) /\ 0 <= f <= g /\ g < 2048 /\
    0 <= pitch_to_octave p < 8 /\ pitch_cents_to_freq_num pal p c = Some (interp f g c).
Proof.
  intros Hp Hc. assert (H := allb_spec _ _ _ (fm_entry_sweep pal) p ltac:(lia)). cbv beta in H.
  destruct (fm_entry pal p) as [[f g]|] eqn:E; [|discriminate].
  exists f, g. split; [reflexivity|].
  assert (Hi := interp_up f g c c ltac:(lia) ltac:(lia) ltac:(lia) ltac:(lia)).
  split; [lia|]. split; [lia|]. split; [lia|].
  unfold fm_entry in E. unfold pitch_cents_to_freq_num.
  destruct (lookup_freq_num pal p 0) as [f0|]; [|discriminate].
  destruct (lookup_freq_num pal p 1) as [g0|]; [|discriminate].
  injection E as -> ->. fold (interp f g c). unfold u16. rewrite Z.mod_small by lia. reflexivity.
Qed.

Lemma div_mod_100 p c : 0 <= c < 100 -> (p * 100 + c) / 100 = p /\ (p * 100 + c) mod 100 = c.
Proof. intros. lia. Qed.

Lemma fm_freq_mono pal x y :
  1100 <= x -> x <= y -> y <= 10699 -> fm_freq pal x <= fm_freq pal y.
Proof.
  intros Hx Hxy Hy. apply (mono_from_adjacent (fm_freq pal) 1100 9599); try lia.
  intros t Ht. unfold fm_freq.
  set (p := t / 100). set (c := t mod 100).
  assert (Hc : 0 <= c < 100) by (subst c; lia).
  assert (Hp : 11 <= p <= 106) by (subst p; lia).
  assert (Et : t = p * 100 + c) by (subst p c; lia).
  destruct (fm_interp pal p c Hp Hc) as (f & g & E & Hfg & Hg & Ho & ->).
  assert (H2 : 0 < 2 ^ pitch_to_octave p) by (apply Z.pow_pos_nonneg; lia).
  destruct (Z_lt_ge_dec c 99) as [Hlt|Hge].
  - assert (E1 : (t + 1) / 100 = p) by lia. assert (E2 : (t + 1) mod 100 = c + 1) by lia.
    rewrite E1, E2. destruct (fm_interp pal p (c + 1) Hp ltac:(lia)) as (f' & g' & E' & _ & _ & _ & ->).
    rewrite E in E'. injection E' as <- <-.
    assert (Hi := interp_up f g c (c + 1) ltac:(lia) ltac:(lia) ltac:(lia) ltac:(lia)). nia.
  - assert (E1 : (t + 1) / 100 = p + 1) by lia. assert (E2 : (t + 1) mod 100 = 0) by lia.
    rewrite E1, E2.
    destruct (fm_interp pal (p + 1) 0 ltac:(lia) ltac:(lia)) as (f' & g' & E' & _ & _ & _ & ->).
    rewrite interp_0.
    assert (H := allb_spec _ _ _ (fm_next_sweep pal) p ltac:(lia)). cbv beta in H.
    rewrite E, E' in H.
    assert (Hi := interp_up f g c c ltac:(lia) ltac:(lia) ltac:(lia) ltac:(lia)). nia.
Qed.

Lemma fm_fields pal p c :
  11 <= p <= 106 -> 0 <= c < 100 ->
  exists f, pitch_cents_to_freq_num pal p c = Some f /\
            0 <= f < 2048 /\ 0 <= pitch_to_octave p < 8.
Proof.
  intros Hp Hc. destruct (fm_interp pal p c Hp Hc) as (f & g & E & Hfg & Hg & Ho & ->).
  assert (Hi := interp_up f g c c ltac:(lia) ltac:(lia) ltac:(lia) ltac:(lia)).
  eexists; split; [reflexivity|]. lia.
Qed.

Lemma fm_octave_up pal p c :
  11 <= p <= 94 -> 0 <= c < 100 ->
  pitch_cents_to_freq_num pal (p + 12) c = pitch_cents_to_freq_num pal p c /\
  pitch_to_octave (p + 12) = pitch_to_octave p + 1.
Proof.
  intros Hp Hc. split.
  - unfold pitch_cents_to_freq_num, lookup_freq_num.
    replace (Z.rem (u8 (p + 12 - MIN_MIDI_PITCH)) 12) with (Z.rem (u8 (p - MIN_MIDI_PITCH)) 12);
      [reflexivity|].
    unfold u8, MIN_MIDI_PITCH. rewrite !Z.mod_small by lia.
    rewrite !Z.rem_mod_nonneg by lia.
    replace (p + 12 - 11) with (p - 11 + 1 * 12) by lia. rewrite Z.mod_add by lia. reflexivity.
  - unfold pitch_to_octave, u8, MIN_MIDI_PITCH.
    rewrite !Z.quot_div_nonneg by lia. rewrite !Z.mod_small by lia. lia.
Qed.

(** Table lookups never leave the tables, for any pitch byte. *)
Lemma freq_lookup_total pal pitch off :
  0 <= off <= 1 -> exists f, lookup_freq_num pal pitch off = Some f.
Proof.
  intros Ho. unfold lookup_freq_num. apply zget_in_range.
  assert (Hu : 0 <= u8 (pitch - MIN_MIDI_PITCH)) by (unfold u8; lia).
  assert (0 <= Z.rem (u8 (pitch - MIN_MIDI_PITCH)) 12 < 12).
  { rewrite Z.rem_mod_nonneg by lia. lia. }
  destruct pal; simpl length; lia.
Qed.

Lemma freq_num_total pal pitch cents :
  exists f, pitch_cents_to_freq_num pal pitch cents = Some f.
Proof.
  unfold pitch_cents_to_freq_num.
  destruct (freq_lookup_total pal pitch 0) as [f ->]; [lia|].
  destruct (freq_lookup_total pal pitch 1) as [g ->]; [lia|]. eauto.
Qed.

(** ** PSG tones *)
Lemma tone_key_total pal key : exists t, tone_for_midi_key pal key = Some t.
Proof.
  unfold tone_for_midi_key.
  destruct (Z.ltb_spec key 45); [destruct pal; eexists; reflexivity|].
  destruct (Z.ltb_spec 127 key); [destruct pal; eexists; reflexivity|].
  apply zget_in_range. destruct pal; simpl length; lia.
Qed.

Lemma tone_total pal pc : exists t, tone_from_pitch_cents pal pc = Some t.
Proof.
  unfold tone_from_pitch_cents.
  destruct (tone_key_total pal (pc_pitch pc)) as [t ->].
  destruct (pc_cents pc =? 0); [eauto|].
  destruct (tone_key_total pal (u8 (pc_pitch pc + 1))) as [t' ->]. eauto.
Qed.

Definition psg_entry (pal : bool) (p : Z) : option (Z * Z) :=
  match tone_for_midi_key pal p, tone_for_midi_key pal (u8 (p + 1)) with
  | Some t, Some n => Some (t, n)
  | _, _ => None
  end.

Lemma psg_entry_sweep pal :
  allb 0 255 (fun p => match psg_entry pal p with
    | Some (t, n) => (8 <=? n) && (n <=? t) && (t <? 1024) | None => false end) = true.
Proof. destruct pal; vm_compute; reflexivity. Qed.

Lemma psg_interp_eq pal p c t n :
  psg_entry pal p = Some (t, n) -> 0 <= interp t n c < 65536 -> 0 <= t ->
  tone_from_pitch_cents pal (mkPc p c) = Some (interp t n c).
Proof.
  unfold psg_entry, tone_from_pitch_cents; cbn [pc_pitch pc_cents]. intros E Hi Ht.
  destruct (tone_for_midi_key pal p) as [t0|]; [|discriminate].
  destruct (tone_for_midi_key pal (u8 (p + 1))) as [n0|]; [|discriminate].
  injection E as -> ->. destruct (Z.eqb_spec c 0) as [->|Hc].
  - rewrite interp_0. reflexivity.
  - fold (interp t n c). unfold u16. rewrite Z.mod_small by lia. reflexivity.
Qed.

Lemma psg_interp pal p c :
  0 <= p <= 254 -> 0 <= c < 100 ->
  exists t n, psg_entry pal p = Some (t, n) /\ 8 <= n <= t /\ t < 1024 /\
    tone_from_pitch_cents pal (mkPc p c) = Some (interp t n c).
Proof.
  intros Hp Hc. assert (H := allb_spec _ _ _ (psg_entry_sweep pal) p ltac:(lia)). cbv beta in H.
  destruct (psg_entry pal p) as [[t n]|] eqn:E; [|discriminate].
  exists t, n. split; [reflexivity|]. split; [lia|]. split; [lia|].
  assert (Hi := interp_down t n c c ltac:(lia) ltac:(lia) ltac:(lia) ltac:(lia)).
  apply psg_interp_eq; auto; lia.
Qed.

Lemma psg_tone_antitone pal x y :
  0 <= x -> x <= y -> y <= 25499 -> psg_tone pal y <= psg_tone pal x.
Proof.
  intros Hx Hxy Hy.
  assert (- psg_tone pal x <= - psg_tone pal y); [|lia].
  apply (mono_from_adjacent (fun t => - psg_tone pal t) 0 25499); try lia.
  intros t Ht. unfold psg_tone.
  set (p := t / 100). set (c := t mod 100).
  assert (Hc : 0 <= c < 100) by (subst c; lia).
  assert (Hp : 0 <= p <= 254) by (subst p; lia).
  assert (Et : t = p * 100 + c) by (subst p c; lia).
  destruct (psg_interp pal p c Hp Hc) as (a & n & E & Hn & Ha & ->).
  destruct (Z_lt_ge_dec c 99) as [Hlt|Hge].
  - assert (E1 : (t + 1) / 100 = p) by lia. assert (E2 : (t + 1) mod 100 = c + 1) by lia.
    rewrite E1, E2. destruct (psg_interp pal p (c + 1) Hp ltac:(lia)) as (a' & n' & E' & _ & _ & ->).
    rewrite E in E'. injection E' as <- <-.
    assert (Hi := interp_down a n c (c + 1) ltac:(lia) ltac:(lia) ltac:(lia) ltac:(lia)). lia.
  - assert (E1 : (t + 1) / 100 = p + 1) by lia. assert (E2 : (t + 1) mod 100 = 0) by lia.
    rewrite E1, E2.
    destruct (psg_interp pal (p + 1) 0 ltac:(lia) ltac:(lia)) as (a' & n' & E' & _ & _ & ->).
    rewrite interp_0.
    assert (Hi := interp_down a n c c ltac:(lia) ltac:(lia) ltac:(lia) ltac:(lia)).
    assert (a' = n); [|lia]. clear -E E' Hp. unfold psg_entry in *.
    replace (u8 (p + 1)) with (p + 1) in E by (unfold u8; rewrite Z.mod_small; lia).
    destruct (tone_for_midi_key pal p); [|discriminate].
    destruct (tone_for_midi_key pal (p + 1)); [|discriminate].
    destruct (tone_for_midi_key pal (u8 (p + 1 + 1))); [|discriminate]. congruence.
Qed.

Lemma tone_range pal p c :
  0 <= p <= 255 -> 0 <= c < 100 ->
  exists x, tone_from_pitch_cents pal (mkPc p c) = Some x /\ 0 < x < 1024.
Proof.
  intros Hp Hc. destruct (Z.eq_dec p 255) as [->|Hne].
  - destruct pal.
    + assert (Hi := interp_up 8 1007 c c ltac:(lia) ltac:(lia) ltac:(lia) ltac:(lia)).
      exists (interp 8 1007 c). split; [apply psg_interp_eq; [reflexivity|lia|lia]|lia].
    + assert (Hi := interp_up 8 1016 c c ltac:(lia) ltac:(lia) ltac:(lia) ltac:(lia)).
      exists (interp 8 1016 c). split; [apply psg_interp_eq; [reflexivity|lia|lia]|lia].
  - destruct (psg_interp pal p c ltac:(lia) Hc) as (a & n & E & Hn & Ha & ->).
    assert (Hi := interp_down a n c c ltac:(lia) ltac:(lia) ltac:(lia) ltac:(lia)).
    eexists; split; [reflexivity|lia].
Qed.

Lemma tone_clamp pal p c :
  0 <= c < 100 -> (0 <= p < 44 \/ 127 <= p <= 254) ->
  tone_from_pitch_cents pal (mkPc p c) = tone_for_midi_key pal (if p <? 45 then 45 else 127).
Proof.
  intros Hc Hp. unfold tone_from_pitch_cents; cbn [pc_pitch pc_cents].
  assert (E : tone_for_midi_key pal p = tone_for_midi_key pal (if p <? 45 then 45 else 127)
           /\ tone_for_midi_key pal (u8 (p + 1)) = tone_for_midi_key pal p).
  { unfold tone_for_midi_key, u8. rewrite Z.mod_small by lia.
    destruct (Z.ltb_spec p 45); destruct (Z.ltb_spec 127 p); destruct (Z.ltb_spec (p + 1) 45);
      destruct (Z.ltb_spec 127 (p + 1)); try lia; cbn; split; try reflexivity;
      assert (p = 127) by lia; subst; reflexivity. }
  destruct E as [E1 E2]. rewrite E2, E1.
  destruct (tone_for_midi_key pal (if p <? 45 then 45 else 127)) as [t|] eqn:Et; [|reflexivity].
  destruct (c =? 0); [reflexivity|].
  replace ((t - t) * c) with 0 by lia. change (Z.quot 0 100) with 0.
  assert (Hr : 0 <= t < 65536).
  { clear -Et. destruct (p <? 45); destruct pal; vm_compute in Et; injection Et as <-; lia. }
  unfold u16. rewrite Z.mod_small by lia. f_equal; lia.
Qed.

Lemma bend_wraps :
  exists pitch bend, 0 <= pitch <= 127 /\ 0 <= bend <= 8192 /\
    total (pc_bend pitch 0 bend (mkPc 2 0)) > total (pc_bend pitch 0 8192 (mkPc 2 0)) + 12700.
Proof. exists 0, 0. vm_compute. intuition congruence. Qed.

Lemma psg_tone_wraps pal :
  exists t, 0 <= t < 25599 /\ psg_tone pal (t + 1) > psg_tone pal t.
Proof. exists 25505. destruct pal; vm_compute; intuition congruence. Qed.
