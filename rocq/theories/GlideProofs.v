(** A line with portamento: from the keys to the chip. *)
From Verif Require Import Base BaseLemmas PitchModel PitchSpec PitchProofs NotePriorityModel SynthModel SynthSpec SynthProofs SynthMirrorProofs SynthClaimsProofs SynthViewProofs.
From Verif Require Import MidiModel MidiSpec MidiProofs MidiOkProofs MidiEqProofs MidiEffectProofs MidiCallProofs MidiNoteProofs MidiChanProofs MidiTuneProofs MidiDevProofs MidiInvProofs MidiStaticProofs MidiPlaceProofs MidiClaimsProofs MidiGlideProofs.
From Verif Require Import PsgModel DevModel DevSpec DevProofs AppModel AppSpec AppProofs AppTraceProofs AppClaimsProofs AppViewProofs AppKeyProofs SoundSpec AppSoundProofs AppToneProofs AppNoteProofs GlideSpec.

(** ** The glide speed *)
Definition speed_inv (f : Z -> Z) (s : midi) : Prop := forall c m, ch_at s c m -> m_int m = f c.
Lemma speed_default s : md_ch s = init_chs -> speed_inv (fun _ => 47) s.
Proof.
  intros H c m Hm. unfold ch_at in Hm. rewrite H in Hm. assert (Hc := zget_Some _ _ _ Hm). change (length init_chs) with 16%nat in Hc.
  assert (E := chan_at_init c ltac:(unfold is_chan; lia)). unfold chan_at in E. rewrite Hm in E. subst m. reflexivity.
Qed.
Lemma speed_zset (f g : Z -> Z) (s : midi) s' c m m' : speed_inv f s ->
  ch_at s c m -> md_ch s' = zset (md_ch s) c m' -> (forall b, b <> c -> g b = f b) -> m_int m' = g c -> speed_inv g s'.
Proof.
  intros HI Hm Hs' Hb H1 b x Hx. unfold ch_at in Hx. rewrite Hs' in Hx. destruct (Z.eq_dec b c) as [->|N].
  - rewrite zget_zset_same in Hx by (eapply zget_Some; exact Hm). injection Hx as <-. exact H1.
  - rewrite zget_zset_other in Hx by congruence. rewrite (Hb b N). apply HI, Hx.
Qed.
Lemma set_at_other {A} (f : Z -> A) c x b : b <> c -> set_at f c x b = f b.
Proof. intros N. unfold set_at. destruct (Z.eqb_spec b c); [contradiction|reflexivity]. Qed.
Lemma set_at_same {A} (f : Z -> A) c x : set_at f c x c = x.
Proof. unfold set_at. rewrite Z.eqb_refl. reflexivity. Qed.

Lemma speed_step op f s s' o : mop_ok op -> midi_ok s -> speed_inv f s -> steps s op s' o -> speed_inv (speed_after f op) s'.
Proof.
  intros Hop Hs HI E. unfold steps in E.
  assert (K : forall x, md_ch x = md_ch s -> speed_inv f x).
  { intros x X2 c m. unfold ch_at. rewrite X2. apply HI. }
  assert (KZ : forall x c m m', ch_at s c m -> md_ch x = zset (md_ch s) c m' -> m_int m' = m_int m -> speed_inv f x).
  { intros x c m m' Hm X2 X3. apply (speed_zset f f s x c m m'); auto. rewrite X3. apply HI, Hm. }
  assert (Koff : forall c p, is_chan c -> midi_note_off c p s = WDone s' o -> speed_inv f s').
  { intros c p Hc E1. destruct (ok_ch_get _ _ Hs Hc) as (m & Hm & _).
    destruct (note_off_effect _ _ _ _ _ m Hs Hc Hm E1) as (_ & _ & st & _ & _ & ->).
    apply (KZ _ c m (m_set_np m st)); auto. }
  destruct op as [c p v|c p|c k v|c p|c b|data| | |cb]; cbn [midi_step mop_ok speed_after] in *.
  - destruct Hop as (Hc & Hp & _). destruct (Z.eqb_spec v 0) as [->|Hv]; [apply (Koff c p); auto|].
    destruct (ok_ch_get _ _ Hs Hc) as (m & Hm & _).
    destruct (midi_note_on_eq c p v s m Hs Hc Hp Hv Hm) as (s1 & o1 & E2 & R). rewrite E in E2. injection E2 as <- <-.
    destruct R; [assumption|eapply KZ; [exact Hm|reflexivity..]|eapply KZ; [exact Hm|reflexivity..]|apply K; reflexivity].
  - destruct Hop. apply (Koff c p); assumption.
  - destruct Hop as (Hc & Hk & Hv). destruct (ok_ch_get _ _ Hs Hc) as (m & Hm & _).
    destruct (midi_cc_result _ _ _ _ m _ _ Hs Hc Hv Hm E) as (o' & R & _). clear E.
    assert (P : k <> 5 -> k <> 121 -> (if k =? 5 then set_at f c (nth (Z.to_nat v) portaTimeToInterval 0) else if k =? 121 then set_at f c 47 else f) = f).
    { intros. destruct (Z.eqb_spec k 5); [lia|]. destruct (Z.eqb_spec k 121); [lia|reflexivity]. }
    destruct R as [m' Hf|Hk'|Hk'|Hk'|s1 Hk' E|Hk'|s1 o1 Hk' E|Hk' _|Hk' Hr|Hk'|o1 Hk' _|Hk'|devs o1 Hk' HH].
    + unfold cc_field in Hf.
      destruct (Z.eqb_spec k 5) as [->|H5].
      { destruct (zget portaTimeToInterval v) as [t|] eqn:Et; [|discriminate]. injection Hf as <-.
        eapply speed_zset; [exact HI|exact Hm|reflexivity| |].
        - intros b N. apply set_at_other, N.
        - rewrite set_at_same. cbn [m_int m_set_int]. unfold zget in Et. destruct (Z.ltb_spec v 0); [discriminate|].
          symmetry. apply nth_error_nth, Et. }
      assert (P' : k <> 121 -> (if k =? 121 then set_at f c 47 else f) = f) by (intros; destruct (Z.eqb_spec k 121); [lia|reflexivity]).
      rewrite P'.
      2:{ intros ->. revert Hf. cbn. discriminate. }
      repeat match type of Hf with
      | (if ?b then _ else _) = _ => destruct b
      end; try discriminate Hf; injection Hf as <-; (eapply KZ; [exact Hm|reflexivity|]); reflexivity || (unfold update_rpn; cbn; repeat match goal with |- context [if ?b then _ else _] => destruct b end; reflexivity).
    + subst k. eapply KZ; [exact Hm|reflexivity..].
    + subst k. eapply KZ; [exact Hm|reflexivity..].
    + rewrite P by (destruct Hk' as [-> | ->]; lia). apply K; reflexivity.
    + subst k. destruct (set_poly_eq _ _ _ _ Hs E) as (X1 & _ & _ & X2 & _). apply K; assumption.
    + subst k. exact HI.
    + subst k. rewrite (resetAll_eq _ _ Hs Hc) in E. injection E as <- _.
      change (121 =? 5) with false. change (121 =? 121) with true. cbv iota. eapply speed_zset; [exact HI|exact Hm|reflexivity| |].
      * intros b N. apply set_at_other, N.
      * rewrite set_at_same. reflexivity.
    + subst k. exact HI.
    + rewrite P by (destruct Hk' as [-> | ->]; lia). eapply KZ; [exact Hm|reflexivity..].
    + rewrite P by (clear -Hk'; lia). exact HI.
    + subst k. exact HI.
    + rewrite P; [exact HI| |]; intros ->; apply Hk'; cbn; tauto.
    + subst k. apply K; reflexivity.
  - destruct Hop as (Hc & _). destruct (ok_ch_get _ _ Hs Hc) as (m & Hm & _).
    rewrite (midi_program_eq _ _ _ m Hm) in E. injection E as <- <-. eapply KZ; [exact Hm|reflexivity..].
  - destruct Hop as (Hc & _). destruct (ok_ch_get _ _ Hs Hc) as (m & Hm & _).
    rewrite (midi_pitch_bend_eq _ _ _ m Hm) in E. injection E as <- <-. eapply KZ; [exact Hm|reflexivity..].
  - destruct (is_gm_reset data) eqn:Eg.
    + rewrite (gm_sysex _ _ Eg) in E. destruct (gm_reset_eq s Hs) as (devs & o2 & o3 & E' & _). rewrite E' in E. injection E as <- <-.
      apply speed_default. reflexivity.
    + apply midi_sysex_result in E.
      destruct E as [|t1 s1 o1 Ed E|a b s1 Ed E|a Ed|a Ed|a Ed|a Ed|o1 _]; try assumption; try (apply K; reflexivity).
      * rewrite Ed in Eg. discriminate.
      * destruct Hop as (H7 & _). rewrite Ed in H7. do 4 apply Forall_inv_tail in H7.
        assert (Hx := Forall_inv H7). assert (Hy := Forall_inv (Forall_inv_tail H7)). unfold MidiSpec.seven in *.
        destruct (remap_eq a b s ltac:(apply Hs) ltac:(lia) ltac:(lia)) as [E'|(_ & i & d & a' & Hd & _ & E' & _)];
          rewrite E' in E; injection E as <-; apply K; reflexivity.
      * destruct (set_dynamic_rest (negb (a =? 0)) s) as (X1 & _ & _ & X2 & _). apply K; assumption.
  - unfold reset in E. do 3 apply emit_inv in E as (? & E & ->). cbv zeta in E.
    rewrite reset_channels_eq in E by apply Hs. injection E as <- <-. apply speed_default. reflexivity.
  - rewrite (midi_tick_eq _ Hs) in E. injection E as <- <-. apply K; reflexivity.
  - injection E as <- <-. apply K; reflexivity.
Qed.
Theorem speed_boot ops s o : boots_to ops s o -> speed_inv (speed ops) s.
Proof.
  intros Hb.
  assert (X : midi_ok s /\ speed_inv (speed ops) s); [|apply X].
  apply (boot_induction speed_after (fun _ => 47) (fun _ => True) speed_inv)
    with (ops := ops) (o := o); [| |apply Forall_forall; auto|exact Hb].
  - apply speed_default. reflexivity.
  - intros op h s0 s' o' H1 H2 H3 H4 H5 H6. apply (speed_step op h s0 s' o'); assumption.
Qed.

(** ** The voice of the line *)
Definition tune (r : rom) (m : mchan) (d : dev) : option (Z * Z) :=
  Some (pitch_to_octave (pc_pitch (eff m d)) mod 8, freq_of r (pc_pitch (eff m d)) (pc_cents (eff m d)) mod 2048).
(** Calls that leave FM channel [n] alone. *)
Definition spares (r : rom) (n : Z) (cs : list dcall) : Prop := forall w,
  v_key (cv_sv (fold_left (cv_step r n) cs w)) = v_key (cv_sv w) /\ v_frq (cv_sv (fold_left (cv_step r n) cs w)) = v_frq (cv_sv w) /\
  v_raw (cv_sv (fold_left (cv_step r n) cs w)) = v_raw (cv_sv w) /\ cv_vel (fold_left (cv_step r n) cs w) = cv_vel w.
Lemma spares_nil r n : spares r n [].
Proof. intros w. repeat split; reflexivity. Qed.
Lemma spares_app r n a b : spares r n a -> spares r n b -> spares r n (a ++ b).
Proof.
  intros A B w. rewrite fold_left_app. destruct (A w) as (A1 & A2 & A3 & A4). destruct (B (fold_left (cv_step r n) a w)) as (B1 & B2 & B3 & B4).
  rewrite B1, B2, B3, B4. auto.
Qed.
Lemma spares_cons r n c t : spares r n [c] -> spares r n t -> spares r n (c :: t).
Proof. exact (spares_app r n [c] t). Qed.
Lemma spares_all r n cs : (forall x, In x cs -> spares r n [x]) -> spares r n cs.
Proof.
  induction cs as [|c t IH]; intros H; [apply spares_nil|]. apply spares_cons; [apply H; left; reflexivity|]. apply IH. intros x Hx. apply H. right. exact Hx.
Qed.
(** A call to the voice of another channel. *)
Lemma spares_voice r n x : (forall m, call_voice x = Some (VFm, m) -> m <> n) -> (call_voice x = None -> (exists m b, x = DPerc m b) \/ exists t a b d, x = DChange t a b d) -> spares r n [x].
Proof.
  intros H N w. cbn [fold_left].
  assert (S0 : forall m, m <> n -> (m =? n) = false) by (intros m X; destruct (Z.eqb_spec m n); [contradiction|reflexivity]).
  destruct x as [v m ? ? ?|v m ?|v m ?|v m ?|v m|v m ?|v m ? ?|m b|?|?|? ?|?|? ?|?|? ?|?| | | | | |? ? ? ?|? ?]; cbn [call_voice] in *;
    try (destruct (N eq_refl) as [(? & ? & [=])|(? & ? & ? & ? & [=])]; cbn [cv_step cv_sops fold_left cv_sv]; try (destruct (m =? n)); repeat split; reflexivity);
    destruct v; try (cbn [cv_step cv_sops fold_left cv_sv]; repeat split; reflexivity);
    assert (X := S0 m (H m eq_refl)); cbn [cv_step cv_sops]; rewrite ?X, ?andb_false_r; cbn [andb fold_left sv_step cv_sv]; rewrite ?X; repeat split; reflexivity.
Qed.

(** Calls that only tune FM channel [n]. *)
Definition tunes (r : rom) (n : Z) (cs : list dcall) (f : option (Z * Z)) : Prop := forall w,
  v_key (cv_sv (fold_left (cv_step r n) cs w)) = v_key (cv_sv w) /\ v_frq (cv_sv (fold_left (cv_step r n) cs w)) = f /\
  v_raw (cv_sv (fold_left (cv_step r n) cs w)) = v_raw (cv_sv w) /\ cv_vel (fold_left (cv_step r n) cs w) = cv_vel w.
Lemma tunes_one r n m d : tunes r n [DPitch VFm n (pc_pitch (eff m d)) (pc_cents (eff m d))] (tune r m d).
Proof. intros w. cbn [fold_left cv_step cv_sops cv_sv sv_step]. rewrite Z.eqb_refl. repeat split; reflexivity. Qed.
Lemma tunes_among r n a b c f : spares r n a -> tunes r n b f -> spares r n c -> tunes r n (a ++ b ++ c) f.
Proof.
  intros A B C w. rewrite !fold_left_app. destruct (A w) as (A1 & A2 & A3 & A4). destruct (B (fold_left (cv_step r n) a w)) as (B1 & B2 & B3 & B4).
  destruct (C (fold_left (cv_step r n) b (fold_left (cv_step r n) a w))) as (C1 & C2 & C3 & C4). rewrite C1, C2, C3, C4, B1, B2, B3, B4. auto.
Qed.

(** The calls for a list of device channels, of which one is the line's. *)
Definition numbered (s : midi) : Prop := forall j e, dev_at s j e -> d_ops e = VFm -> d_num e = j.
Lemma numbered_ok s : midi_ok s -> numbered s.
Proof.
  intros Hs j e He Oe. destruct (ok_dev _ _ _ Hs He) as [[(S1 & S2 & S3) _] Hj]. destruct (Z_lt_dec j 6); [apply S1; lia|].
  destruct (Z_lt_dec j 10); [destruct S2 as [_ S2]; [lia|congruence]|]. destruct S3 as [_ S3]; [lia|congruence].
Qed.
Lemma flat_split s n d (h : dev -> list dcall) r : numbered s -> dev_at s n d ->
  (forall e x, In x (h e) -> call_voice x = Some (d_ops e, d_num e)) ->
  exists a b, flat_map h (md_dev s) = a ++ h d ++ b /\ spares r n a /\ spares r n b.
Proof.
  intros Nu Hd Hh. unfold dev_at in Hd. assert (Rn := zget_Some _ _ _ Hd). unfold zget in Hd. destruct (Z.ltb_spec n 0); [lia|].
  apply nth_error_split in Hd as (l1 & l2 & Ed & Ll). exists (flat_map h l1), (flat_map h l2). split; [rewrite Ed, flat_map_app; reflexivity|].
  assert (OV : forall e, In e l1 \/ In e l2 -> d_ops e = VFm -> d_num e <> n).
  { intros e He Oe. destruct He as [He|He]; apply In_nth_error in He as [k Hk].
    - assert (Kl : (k < length l1)%nat) by (apply nth_error_Some; congruence).
      assert (Z : dev_at s (Z.of_nat k) e).
      { unfold dev_at. rewrite Ed. unfold zget. destruct (Z.ltb_spec (Z.of_nat k) 0); [lia|]. rewrite Nat2Z.id, nth_error_app1 by exact Kl. exact Hk. }
      rewrite (Nu _ _ Z Oe). lia.
    - assert (Z : dev_at s (n + 1 + Z.of_nat k) e).
      { unfold dev_at. rewrite Ed. unfold zget. destruct (Z.ltb_spec (n + 1 + Z.of_nat k) 0); [lia|]. rewrite nth_error_app2 by lia.
        replace (Z.to_nat (n + 1 + Z.of_nat k) - length l1)%nat with (Datatypes.S k) by lia. exact Hk. }
      rewrite (Nu _ _ Z Oe). lia. }
  split; apply spares_all; intros x Hx; apply in_flat_map in Hx as (e & He & Hx); assert (Y := Hh e x Hx);
    (apply spares_voice; [|rewrite Y; discriminate]; intros m Hm; rewrite Y in Hm; injection Hm as O1 O2; rewrite <- O2; apply OV; auto).
Qed.

(** ** One frame of a glide *)
Lemma glide_exact n d : glide_ok n d ->
  let d' := glide_dev n d in let G := 100 * d_glide d in
  position d' = (if position d <? G then Z.min G (position d + n) else if position d - n <? G + 100 then G else position d - n) /\
  (d_glide d' = d_glide d \/ d_glide d' = 0 /\ position d' = G).
Proof.
  intros (Hp & Hc & Hg & Hn & Hlow). cbv zeta. unfold glide_dev, position in *.
  destruct (Z.eqb_spec (d_glide d) 0); [lia|]. cbn [orb].
  destruct (Z.eqb_spec (d_glide d) (d_pitch d)) as [E|E]; cbn [andb].
  - destruct (Z.eqb_spec (d_cents d) 0) as [E0|E0]; cbn [andb].
    + split; [|left; reflexivity]. destruct (Z.ltb_spec (100 * d_pitch d + d_cents d) (100 * d_glide d)); [lia|].
      destruct (Z.ltb_spec (100 * d_pitch d + d_cents d - n) (100 * d_glide d + 100)); lia.
    + unfold glide_inc. destruct (Z.ltb_spec (d_pitch d) (d_glide d)); [lia|]. destruct (Z.ltb_spec (d_glide d) (d_pitch d)); [lia|].
      cbn [orb]. destruct (Z.eqb_spec (d_glide d) (d_pitch d)); [|lia]. destruct (Z.ltb_spec 0 (d_cents d)); [|lia]. cbn [andb].
      rewrite (s16_small (0 - n)) by lia.
      destruct (pc_shift_exact (mkPc (d_pitch d) (d_cents d)) (0 - n)) as (T & Tc & Tp); [unfold total; cbn; lia|].
      unfold total in T; cbn [pc_pitch pc_cents] in T. set (pc := pc_shift _ _) in *. clearbody pc.
      replace (0 <? 0 - n) with false by lia. replace (0 - n <? 0) with true by lia. cbn [andb orb].
      destruct (Z.leb_spec (pc_pitch pc) (d_glide d)); [|lia]. cbn [d_pitch d_cents d_glide d_set_glide d_set_cents d_set_pitch]. unfold u8. rewrite Z.mod_small by lia.
      split; [|right; lia]. destruct (Z.ltb_spec (100 * d_pitch d + d_cents d) (100 * d_glide d)); [lia|].
      destruct (Z.ltb_spec (100 * d_pitch d + d_cents d - n) (100 * d_glide d + 100)); lia.
  - unfold glide_inc. destruct (Z.ltb_spec (d_pitch d) (d_glide d)) as [Hl|Hl].
    + rewrite (s16_small n) by lia.
      destruct (pc_shift_exact (mkPc (d_pitch d) (d_cents d)) n) as (T & Tc & Tp); [unfold total; cbn; lia|].
      unfold total in T; cbn [pc_pitch pc_cents] in T. set (pc := pc_shift _ _) in *. clearbody pc.
      replace (0 <? n) with true by lia. replace (n <? 0) with false by lia. cbn [andb orb]. rewrite orb_false_r.
      destruct (Z.ltb_spec (100 * d_pitch d + d_cents d) (100 * d_glide d)); [|lia].
      destruct (Z.leb_spec (d_glide d) (pc_pitch pc)); cbn [d_pitch d_cents d_glide d_set_glide d_set_cents d_set_pitch].
      * unfold u8. rewrite Z.mod_small by lia. split; [|right]; lia.
      * split; [|left]; lia.
    + destruct (Z.ltb_spec (d_glide d) (d_pitch d)); [|lia]. cbn [orb]. rewrite (s16_small (0 - n)) by lia.
      destruct (pc_shift_exact (mkPc (d_pitch d) (d_cents d)) (0 - n)) as (T & Tc & Tp); [unfold total; cbn; lia|].
      unfold total in T; cbn [pc_pitch pc_cents] in T. set (pc := pc_shift _ _) in *. clearbody pc.
      replace (0 <? 0 - n) with false by lia. replace (0 - n <? 0) with true by lia. cbn [andb orb].
      destruct (Z.ltb_spec (100 * d_pitch d + d_cents d) (100 * d_glide d)); [lia|].
      destruct (Z.ltb_spec (100 * d_pitch d + d_cents d - n) (100 * d_glide d + 100));
        destruct (Z.leb_spec (pc_pitch pc) (d_glide d)); cbn [d_pitch d_cents d_glide d_set_glide d_set_cents d_set_pitch]; try lia.
      * unfold u8. rewrite Z.mod_small by lia. split; [|right]; lia.
Qed.
Lemma glide_still n d : position d = 100 * d_glide d -> 0 <= d_cents d < 100 -> glide_dev n d = d.
Proof. intros P C. apply (arrived_stays n (d_glide d)). unfold arrived, position in *. lia. Qed.
Lemma glide_fields n d : d_ops (glide_dev n d) = d_ops d /\ d_num (glide_dev n d) = d_num d /\ d_midi (glide_dev n d) = d_midi d /\
  d_on (glide_dev n d) = d_on d /\ d_bend (glide_dev n d) = d_bend d.
Proof. unfold glide_dev. destruct (_ || _); [auto|]. cbv zeta. destruct (_ || _); auto. Qed.

(** ** The line in the interface *)
Definition on_line (c rate : Z) (l : line) (s : midi) (m : mchan) (d : dev) : Prop :=
  (dev_at s c d /\ ch_at s c m /\ d_ops d = VFm /\ d_num d = c /\ d_midi d = c /\ d_on d = true /\ d_bend d = m_bend m) /\
  (m_porta m = true /\ m_int m = rate /\ keys (m_np m) = l_keys l /\ l_keys l <> [] /\ Forall (fun k => 12 <= k <= 127) (l_keys l)) /\
  position d = l_at l /\ (d_glide d = newest l \/ d_glide d = 0 /\ l_at l = 100 * newest l).
(** What the calls of a step do to the line's FM channel. *)
Definition heard_as (c : Z) (cs : list dcall) (m m' : mchan) (d d' : dev) : Prop :=
  forall r, spares r c cs /\ tune r m' d' = tune r m d \/ tunes r c cs (tune r m' d').

Lemma newest_key c rate l s m d : on_line c rate l s m d -> 12 <= newest l <= 127.
Proof. intros (_ & (_ & _ & _ & N & F) & _). rewrite Forall_forall in F. apply F. unfold newest. apply last_In, N. Qed.
Lemma pitch_range s c d : midi_ok s -> dev_at s c d -> 0 <= d_pitch d < 256 /\ 0 <= d_cents d < 100.
Proof. intros Hs Hd. destruct (ok_dev _ _ _ Hs Hd) as [(_ & _ & _ & Hp & _ & _ & _ & Hc & Hg7) _]. lia. Qed.

Lemma line_frame c rate l s m d s' cs : midi_ok s -> 0 <= c < 6 -> 1 <= rate <= 1145 -> on_line c rate l s m d -> steps s MTick s' cs ->
  exists d', on_line c rate (line_after rate c l AFrame) s' m d' /\ heard_as c cs m m d d'.
Proof.
  intros Hs Hc Hrate J St. assert (Nk := newest_key _ _ _ _ _ _ J). destruct J as ((Hd & Hm & Ops & Num & Mid & On & Be) & (Po & In_ & Ke & Ne & Fo) & Pos & Gl).
  destruct (pitch_range _ _ _ Hs Hd) as [Hp Hce].
  unfold steps in St. cbn [midi_step] in St. rewrite (midi_tick_eq _ Hs) in St. injection St as <- <-.
  assert (Td : tick_dev (md_ch s) d = glide_dev rate d).
  { unfold tick_dev. rewrite Mid. unfold ch_at in Hm. rewrite Hm, Po, On, In_. unfold UNASSIGNED. destruct (Z.eqb_spec c 127); [lia|]. reflexivity. }
  assert (Tc : tick_calls (md_ch s) d = glide_calls m d).
  { unfold tick_calls. rewrite Mid. unfold ch_at in Hm. rewrite Hm, Po, On. unfold UNASSIGNED. destruct (Z.eqb_spec c 127); [lia|]. reflexivity. }
  exists (glide_dev rate d). destruct (glide_fields rate d) as (F1 & F2 & F3 & F4 & F5).
  assert (X : position (glide_dev rate d) = moved rate l /\ (d_glide (glide_dev rate d) = newest l \/ d_glide (glide_dev rate d) = 0 /\ moved rate l = 100 * newest l)).
  { destruct Gl as [Gl|[Gl At]].
    - destruct (glide_exact rate d) as [X1 X2]; [unfold glide_ok; lia|]. rewrite Gl, Pos in X1. rewrite Gl in X2. unfold moved. rewrite X1 in X2. split; [exact X1|exact X2].
    - assert (E : glide_dev rate d = d) by (unfold glide_dev; rewrite Gl; reflexivity). rewrite E, Pos, Gl. unfold moved. rewrite At.
      destruct (Z.ltb_spec (100 * newest l) (100 * newest l)); [lia|]. destruct (Z.ltb_spec (100 * newest l - rate) (100 * newest l + 100)); [|lia]. auto. }
  destruct X as [X1 X2]. split.
  - split; [|split; [|split; [exact X1|exact X2]]].
    + rewrite F1, F2, F3, F4, F5. repeat (split; [assumption||idtac|]); [|assumption]. unfold dev_at. cbn [md_dev md_set_dev]. rewrite zget_map. unfold dev_at in Hd. rewrite Hd. cbn. rewrite Td. reflexivity.
    + repeat (split; [assumption|]). exact Fo.
  - intros r. destruct (flat_split s c d (tick_calls (md_ch s)) r (numbered_ok s Hs) Hd) as (a & b & E & A & B).
    { intros e x Hx. unfold tick_calls in Hx. destruct (zget _ _); [|destruct Hx]. destruct (_ && d_on e); [|destruct Hx]. unfold glide_calls in Hx.
      destruct (_ || _); [destruct Hx|]. destruct Hx as [<-|[]]. cbn [call_voice]. destruct (glide_fields (m_int m0) e) as (-> & -> & _). reflexivity. }
    rewrite E, Tc. unfold glide_calls. destruct (_ || _) eqn:Eb.
    + left. split; [apply spares_app; [exact A|exact B]|]. unfold glide_dev. rewrite Eb. reflexivity.
    + right. rewrite In_. cbv zeta. rewrite F1, F2, Ops, Num. apply tunes_among; [exact A|apply tunes_one|exact B].
Qed.

Lemma line_press c rate l s m d k v s' cs : midi_ok s -> static_map s -> 0 <= c < 6 -> 12 <= k <= 127 -> v <> 0 -> (length (l_keys l) < 10)%nat ->
  on_line c rate l s m d -> steps s (MNoteOn c k v) s' cs ->
  exists m' d', on_line c rate (mkLine (l_keys l ++ [k]) (l_at l)) s' m' d' /\ heard_as c cs m m' d d'.
Proof.
  intros Hs Hst Hc Hk Hv Hl J St. destruct J as ((Hd & Hm & Ops & Num & Mid & On & Be) & (Po & In_ & Ke & Ne & Fo) & Pos & Gl).
  assert (Hci : is_chan c) by (unfold is_chan; lia). assert (Hk7 : MidiSpec.seven k) by (unfold MidiSpec.seven; lia).
  unfold steps in St; cbn [midi_step] in St.
  destruct (midi_note_on_eq c k v s m Hs Hci Hk7 Hv Hm) as (s1 & o1 & E2 & R). rewrite St in E2. injection E2 as <- <-.
  destruct R as [[Ht|[Ht|[_ Ht]]]|i e st Ht Ci He _ So Ks Hpo' _|i e st Ht Ci He _ _ Ek [X|X]|i e Ht Ci He Hvc].
  - exfalso. unfold tooManyPercussiveNotes, PERCUSSION in Ht. destruct (Z.eqb_spec c 9); [lia|]. discriminate.
  - exfalso. unfold MidiEqProofs.chosen in Ht. destruct (device_min_max (m_sel m)) as [lo hi]. destruct Hst as [H1 H2]. rewrite H1 in Ht.
    destruct (first_dev _ _ _) in Ht; [discriminate|]. cbn [orelse] in Ht. unfold by_midi in Ht.
    assert (X := first_dev_none _ _ _ _ c d Ht ltac:(lia) Hd). cbv beta in X. lia.
  - exfalso. rewrite Ke in Ht. lia.
  - destruct (static_chosen s m c i e Hst Ci He) as [-> Hmi]. unfold dev_at in Hd. rewrite Hd in He. injection He as <-.
    exists (m_set_vel (m_set_np m st) v), (d_set_glide d k). split.
    + split; [|split; [|split; [exact Pos|left; unfold newest; cbn [l_keys]; rewrite last_last; reflexivity]]].
      * repeat (split; [first [assumption|unfold dev_at, ch_at; cbn [md_dev md_ch md_set_dev md_set_ch]; apply zget_zset_same; eapply zget_Some; eassumption]|]). exact Be.
      * cbn [m_porta m_int m_np m_set_vel m_set_np l_keys]. repeat (split; [assumption || congruence|]). split; [destruct (l_keys l); discriminate|].
        apply Forall_app. split; [exact Fo|]. constructor; [lia|constructor].
    + intros r. left. split; [apply spares_nil|reflexivity].
  - congruence.
  - congruence.
  - exfalso. apply Hvc. apply static_single; [assumption|assumption|lia].
Qed.

Lemma count_on c l : voice_count c true l <= voice_count c false l.
Proof. induction l as [|e t IH]; cbn [voice_count]; [lia|]. destruct (d_midi e =? c), (d_on e); cbn [andb negb]; lia. Qed.
Lemma count_some c l d : In d l -> d_midi d = c -> d_on d = true -> 1 <= voice_count c true l.
Proof.
  induction l as [|e t IH]; intros Hin Hm Ho; [destruct Hin|]. assert (X := voice_count_nonneg c true t). cbn [voice_count]. destruct Hin as [->|Hin].
  - rewrite Hm, Ho, Z.eqb_refl. cbn [andb negb]. lia.
  - specialize (IH Hin Hm Ho). destruct (_ && _); lia.
Qed.
Lemma line_alone c s d : midi_ok s -> static_map s -> 0 <= c < 6 -> dev_at s c d -> d_midi d = c -> d_on d = true -> voice_count c true (md_dev s) = 1.
Proof.
  intros Hs Hst Hc Hd Hm Ho. assert (X := static_single s c Hs Hst ltac:(lia)). assert (Y := count_on c (md_dev s)).
  assert (In d (md_dev s)). { unfold dev_at, zget in Hd. destruct (c <? 0); [discriminate|]. eapply nth_error_In, Hd. }
  assert (Z := count_some c _ d H Hm Ho). lia.
Qed.
Lemma line_serves c rate l s m d : midi_ok s -> on_line c rate l s m d -> serves_note c (newest l) d = true.
Proof.
  intros Hs J. assert (Nk := newest_key _ _ _ _ _ _ J). destruct J as ((Hd & Hm & Ops & Num & Mid & On & Be) & _ & Pos & Gl).
  destruct (pitch_range _ _ _ Hs Hd) as [Hp Hce]. unfold serves_note. rewrite Mid, Z.eqb_refl. cbn [andb].
  rewrite playing_note by (destruct Gl as [->|[-> _]]; lia). rewrite On. cbn [andb]. unfold note_of. unfold position in Pos.
  apply Z.eqb_eq. destruct Gl as [->|[-> At]]; [destruct (Z.eqb_spec (newest l) 0); lia|]. rewrite Z.eqb_refl. lia.
Qed.

Lemma line_release c rate l s m d s' cs : midi_ok s -> static_map s -> 0 <= c < 6 -> released (newest l) (l_keys l) <> [] ->
  on_line c rate l s m d -> steps s (MNoteOff c (newest l)) s' cs ->
  exists m' d', on_line c rate (mkLine (released (newest l) (l_keys l)) (l_at l)) s' m' d' /\ heard_as c cs m m' d d'.
Proof.
  intros Hs Hst Hc Hr J St. assert (Sv := line_serves _ _ _ _ _ _ Hs J). destruct J as ((Hd & Hm & Ops & Num & Mid & On & Be) & (Po & In_ & Ke & Ne & Fo) & Pos & Gl).
  assert (Hci : is_chan c) by (unfold is_chan; lia). unfold steps in St; cbn [midi_step] in St.
  destruct (note_off_effect c (newest l) s s' cs m Hs Hci Hm St) as (_ & Ec & st & So & Ks & Es). set (k := newest l) in *.
  assert (Os : off_stack m k = released k (l_keys l)) by (unfold off_stack, released; rewrite Ke; reflexivity).
  assert (Fr : Forall (fun x => 12 <= x <= 127) (released k (l_keys l))) by (apply Forall_forall; intros x Hx; apply filter_In in Hx as [Hx _]; rewrite Forall_forall in Fo; auto).
  assert (Nx : 12 <= off_next m k <= 127) by (unfold off_next; rewrite Os; rewrite Forall_forall in Fr; apply Fr, last_In, Hr).
  assert (Fb : falls_back s m c k = true).
  { unfold falls_back. rewrite (line_alone c s d Hs Hst Hc Hd Mid On). destruct (Z.eqb_spec (off_next m k) 0); [lia|reflexivity]. }
  assert (Ex : existsb (serves_note c k) (md_dev s) = true).
  { apply existsb_exists. exists d. split; [|exact Sv]. unfold dev_at, zget in Hd. destruct (c <? 0); [discriminate|]. eapply nth_error_In, Hd. }
  assert (Kk : keys st = released k (l_keys l)) by (rewrite Ks; unfold note_off_keys; rewrite Fb, Ex, Po; exact Os).
  exists (m_set_np m st), (d_set_glide d (off_next m k)). split.
  - split; [|split; [|split; [exact Pos|left; unfold newest; cbn [l_keys]; unfold off_next; rewrite Os; reflexivity]]].
    + split.
      { rewrite Es. unfold dev_at. cbn [md_dev md_set_dev]. rewrite zget_map. unfold dev_at in Hd. rewrite Hd. cbn [option_map]. unfold note_off_dev. rewrite Sv, Fb. unfold retrig_dev. rewrite Po. reflexivity. }
      split; [rewrite Es; unfold ch_at; cbn [md_ch md_set_dev md_set_ch]; apply zget_zset_same; eapply zget_Some; exact Hm|].
      repeat (split; [assumption|]). exact Be.
    + cbn [m_porta m_int m_np m_set_np l_keys]. repeat (split; [assumption|]). exact Fr.
  - intros r. left. split; [|reflexivity]. rewrite Ec. apply spares_all. intros x Hx. apply in_flat_map in Hx as (e & _ & Hx). unfold note_off_calls in Hx.
    rewrite Fb in Hx. unfold retrig_calls in Hx. rewrite Po in Hx. destruct (serves_note c k e); destruct Hx.
Qed.

Lemma line_bend c rate l s m d b s' cs : midi_ok s -> 0 <= c < 6 -> on_line c rate l s m d -> steps s (MBend c b) s' cs ->
  exists m' d', on_line c rate l s' m' d' /\ heard_as c cs m m' d d'.
Proof.
  intros Hs Hc J St. destruct J as ((Hd & Hm & Ops & Num & Mid & On & Be) & (Po & In_ & Ke & Ne & Fo) & Pos & Gl).
  unfold steps in St. cbn [midi_step] in St. rewrite (midi_pitch_bend_eq _ _ _ m Hm) in St. injection St as <- <-.
  exists (m_set_bend m b), (d_set_bend d b). split.
  - split; [|split; [|split; [exact Pos|exact Gl]]].
    + split.
      { unfold dev_at. cbn [md_dev md_set_dev]. rewrite zget_map. unfold dev_at in Hd. rewrite Hd. cbn [option_map]. unfold at_chan. rewrite Mid, On, Z.eqb_refl. reflexivity. }
      split; [unfold ch_at; cbn [md_ch md_set_dev md_set_ch]; apply zget_zset_same; eapply zget_Some; exact Hm|].
      repeat (split; [assumption|]). reflexivity.
    + cbn [m_porta m_int m_np m_set_bend]. repeat (split; [assumption|]). exact Fo.
  - intros r. set (h := fun e : dev => _). destruct (flat_split s c d (calls_at c h) r (numbered_ok s Hs) Hd) as (x & y & E & A & B).
    { intros e z Hz. unfold calls_at, h in Hz. destruct (d_midi e =? c); [|destruct Hz]. destruct (d_on e); [|destruct Hz]. destruct (d_bend e =? b); [destruct Hz|].
      destruct Hz as [<-|[]]. reflexivity. }
    rewrite E. unfold calls_at, h. rewrite Mid, On, Z.eqb_refl. destruct (Z.eqb_spec (d_bend d) b) as [Eb|Eb].
    + left. split; [apply spares_app; [exact A|exact B]|]. unfold tune, eff. cbn [d_pitch d_cents d_bend d_set_bend m_range m_fine m_set_bend]. rewrite Eb. reflexivity.
    + right. rewrite Ops, Num. exact (tunes_among r c _ _ _ _ A (tunes_one r c (m_set_bend m b) (d_set_bend d b)) B).
Qed.

Lemma line_elsewhere ops o c rate l s m d a op s' cs : Forall (fun op => ~ remaps op) ops -> boots_to ops s o -> mop_ok op -> 0 <= c < 6 -> a <> c -> note_or_setting a op ->
  on_line c rate l s m d -> steps s op s' cs -> on_line c rate l s' m d /\ heard_as c cs m m d d.
Proof.
  intros W B Ho Hc Ha N J St. destruct (c36 ops s o op s' cs a W B Ho N St) as (C1 & C2 & C3 & C4).
  destruct J as ((Hd & Hm & J) & K). split.
  - split; [|exact K]. split; [apply C3; [exact Hd|congruence]|]. split; [apply C4; [exact Hm|congruence]|exact J].
  - intros r. left. split; [|reflexivity]. apply spares_all. intros x Hx. apply spares_voice.
    + intros n Hn. specialize (C1 x _ Hx Hn). unfold static_voice in C1. destruct C1 as [[_ X]|[[_ X]|[[_ X]|[_ X]]]]; try discriminate X. injection X as ->. exact Ha.
    + intros Hn. destruct (C2 x Hx Hn) as [(n & -> & _)|(t & y & z & ->)]; [left; eauto|right; eauto].
Qed.

Lemma line_step ops o c rate l s m d op s' cs : Forall (fun op => ~ remaps op) ops -> boots_to ops s o -> aop_ok op -> 0 <= c < 6 -> 1 <= rate <= 1145 ->
  on_line c rate l s m d -> legato c l op -> steps s (message op) s' cs ->
  exists m' d', on_line c rate (line_after rate c l op) s' m' d' /\ heard_as c cs m m' d d'.
Proof.
  intros W B Ho Hc Hrate J L St. destruct (static_boot ops s o W B) as [Hs Hst].
  assert (El : forall a x, op = AMsg x -> a <> c -> note_or_setting a x -> line_after rate c l op = l -> exists m' d', on_line c rate (line_after rate c l op) s' m' d' /\ heard_as c cs m m' d d').
  { intros a x -> Ha N ->. exists m, d. eapply line_elsewhere; eassumption. }
  destruct op as [x|]; cbn [message aop_ok] in *.
  2:{ destruct (line_frame _ _ _ _ _ _ _ _ Hs Hc Hrate J St) as (d' & X). eauto. }
  destruct x as [b k v|b k|b k v|b k|b k|data| | |cb]; cbn [legato] in L.
  - destruct (Z.eq_dec b c) as [->|Nb].
    + destruct (L eq_refl) as (L1 & L2 & L3). destruct Ho as (_ & Hk & _). unfold MidiSpec.seven in Hk. cbn [line_after]. rewrite Z.eqb_refl.
      eapply line_press; try eassumption. lia.
    + apply (El b _ eq_refl Nb); [left; eauto|]. cbn [line_after]. destruct (Z.eqb_spec b c); [contradiction|reflexivity].
  - destruct (Z.eq_dec b c) as [->|Nb].
    + destruct (L eq_refl) as (-> & L2). cbn [line_after]. rewrite Z.eqb_refl. eapply line_release; eassumption.
    + apply (El b _ eq_refl Nb); [right; left; eauto|]. cbn [line_after]. destruct (Z.eqb_spec b c); [contradiction|reflexivity].
  - destruct L as (a & Ha & N). exact (El a _ eq_refl Ha N eq_refl).
  - destruct L as (a & Ha & N). exact (El a _ eq_refl Ha N eq_refl).
  - destruct (Z.eq_dec b c) as [->|Nb]; [eapply line_bend; eassumption|].
    apply (El b _ eq_refl Nb); [unfold note_or_setting; right; right; right; right; eauto|reflexivity].
  - destruct L as (a & Ha & N). exact (El a _ eq_refl Ha N eq_refl).
  - destruct L as (a & Ha & N). exact (El a _ eq_refl Ha N eq_refl).
  - destruct L as (a & Ha & N). exact (El a _ eq_refl Ha N eq_refl).
  - destruct L as (a & Ha & N). exact (El a _ eq_refl Ha N eq_refl).
Qed.
