(** The portamento switch and the fine tuning stored for each MIDI channel. *)
From Verif Require Import Base BaseLemmas PitchModel NotePriorityModel SynthModel MidiModel MidiSpec MidiProofs MidiOkProofs.
From Verif Require Import MidiEqProofs MidiEffectProofs MidiNoteProofs MidiChanProofs SoundSpec.

Definition tune_inv (t : tuning) (s : midi) : Prop :=
  md_nogm s = negb (tn_all t) /\ forall c m, ch_at s c m -> m_porta m = tn_glide t c /\ m_fine m = tn_fine t c.

Lemma tune_default s : md_ch s = init_chs -> forall c m, ch_at s c m -> m_porta m = false /\ m_fine m = 0.
Proof.
  intros H c m Hm. unfold ch_at in Hm. rewrite H in Hm. assert (Hc := zget_Some _ _ _ Hm). change (length init_chs) with 16%nat in Hc.
  assert (E := chan_at_init c ltac:(unfold is_chan; lia)). unfold chan_at in E. rewrite Hm in E. subst m. auto.
Qed.
Lemma tune_zset (t : tuning) (s : midi) s' c m m' g f : (forall c m, ch_at s c m -> m_porta m = tn_glide t c /\ m_fine m = tn_fine t c) ->
  ch_at s c m -> md_ch s' = zset (md_ch s) c m' ->
  (forall b, b <> c -> g b = tn_glide t b /\ f b = tn_fine t b) -> m_porta m' = g c -> m_fine m' = f c ->
  forall b x, ch_at s' b x -> m_porta x = g b /\ m_fine x = f b.
Proof.
  intros HI Hm Hs' Hb H1 H2 b x Hx. unfold ch_at in Hx. rewrite Hs' in Hx. destruct (Z.eq_dec b c) as [->|N].
  - rewrite zget_zset_same in Hx by (eapply zget_Some; exact Hm). injection Hx as <-. auto.
  - rewrite zget_zset_other in Hx by congruence. destruct (Hb b N) as [-> ->]. apply HI, Hx.
Qed.
Lemma range_two v : seven v -> negb (RANGE v 2 =? 0) = (64 <=? v).
Proof.
  unfold seven, RANGE. change (Z.quot 128 2) with 64. intros H. rewrite Z.quot_div_nonneg by lia.
  destruct (Z.leb_spec 64 v).
  - assert (1 <= v / 64) by (apply Z.div_le_lower_bound; lia). destruct (Z.eqb_spec (v / 64) 0); [lia|reflexivity].
  - rewrite Z.div_small by lia. reflexivity.
Qed.
Lemma fine_seven v : seven v -> s8 (v - 64) = v - 64.
Proof.
  unfold seven, s8. intros H. rewrite Z.mod_small by lia. lia.
Qed.

Lemma tune_step op t s s' o :
  True -> mop_ok op -> midi_ok s -> tune_inv t s -> steps s op s' o -> midi_ok s' -> tune_inv (tuning_after t op) s'.
Proof.
  intros _ Hop Hs [HG HI] E _. unfold steps in E.
  assert (K : forall x, md_nogm x = md_nogm s -> md_ch x = md_ch s -> tune_inv t x).
  { intros x X1 X2. split; [congruence|]. intros c m. unfold ch_at. rewrite X2. apply HI. }
  assert (KZ : forall x c m m', md_nogm x = md_nogm s -> ch_at s c m -> md_ch x = zset (md_ch s) c m' -> m_porta m' = m_porta m -> m_fine m' = m_fine m -> tune_inv t x).
  { intros x c m m' X1 Hm X2 X3 X4. split; [congruence|]. destruct (HI c m Hm) as [Y1 Y2].
    apply (tune_zset t s x c m m'); auto; congruence. }
  assert (Koff : forall c p, is_chan c -> midi_note_off c p s = WDone s' o -> tune_inv t s').
  { intros c p Hc E1. destruct (ok_ch_get _ _ Hs Hc) as (m & Hm & _).
    destruct (note_off_effect _ _ _ _ _ m Hs Hc Hm E1) as (_ & _ & st & _ & _ & ->).
    apply (KZ _ c m (m_set_np m st)); auto. }
  destruct op as [c p v|c p|c k v|c p|c b|data| | |cb]; cbn [midi_step mop_ok tuning_after] in *.
  - destruct Hop as (Hc & Hp & _). destruct (Z.eqb_spec v 0) as [->|Hv]; [apply (Koff c p); auto|].
    destruct (ok_ch_get _ _ Hs Hc) as (m & Hm & _).
    destruct (midi_note_on_eq c p v s m Hs Hc Hp Hv Hm) as (s1 & o1 & E2 & R). rewrite E in E2. injection E2 as <- <-.
    destruct R; [split; assumption|eapply KZ; [reflexivity|exact Hm|reflexivity..]|eapply KZ; [reflexivity|exact Hm|reflexivity..]|apply K; reflexivity].
  - destruct Hop. apply (Koff c p); assumption.
  - destruct Hop as (Hc & Hk & Hv). destruct (ok_ch_get _ _ Hs Hc) as (m & Hm & _). destruct (HI c m Hm) as [Y1 Y2].
    destruct (midi_cc_result _ _ _ _ m _ _ Hs Hc Hv Hm E) as (o' & R & _). clear E.
    assert (P : k <> 65 -> k <> 85 -> k <> 121 -> (if k =? 65 then mkTune (tn_all t) (set_at (tn_glide t) c (64 <=? v)) (tn_fine t)
      else if k =? 85 then mkTune (tn_all t) (tn_glide t) (if tn_all t then set_at (tn_fine t) c (v - 64) else tn_fine t)
      else if k =? 121 then mkTune (tn_all t) (set_at (tn_glide t) c false) (set_at (tn_fine t) c 0) else t) = t).
    { intros. destruct (Z.eqb_spec k 65); [lia|]. destruct (Z.eqb_spec k 85); [lia|]. destruct (Z.eqb_spec k 121); [lia|reflexivity]. }
    destruct R as [m' Hf|Hk'|Hk'|Hk'|s1 Hk' E|Hk'|s1 o1 Hk' E|Hk' _|Hk' Hr|Hk'|o1 Hk' _|Hk'|devs o1 Hk' HH].
    + unfold cc_field in Hf.
      destruct (Z.eqb_spec k 5) as [->|H5]; [destruct (zget portaTimeToInterval v); [|discriminate]; injection Hf as <-; eapply KZ; [reflexivity|exact Hm|reflexivity..]|].
      destruct (Z.eqb_spec k 86) as [->|H86]; [destruct (md_nogm s) eqn:Eg; [discriminate|]; injection Hf as <-; eapply KZ; [exact Eg|exact Hm|reflexivity..]|].
      destruct (Z.eqb_spec k 65) as [->|H65].
      { injection Hf as <-. split; [exact HG|]. cbn [tn_glide tn_fine]. eapply tune_zset; [exact HI|exact Hm|reflexivity| | |].
        - intros b N. unfold set_at. destruct (Z.eqb_spec b c); [contradiction|auto].
        - unfold set_at. rewrite Z.eqb_refl. apply range_two, Hv.
        - exact Y2. }
      destruct (Z.eqb_spec k 85) as [->|H85].
      { destruct (md_nogm s) eqn:Eg; [discriminate|]. injection Hf as <-. destruct (tn_all t) eqn:Et; [|discriminate HG].
        split; [cbn [tn_all]; cbn; congruence|]. cbn [tn_glide tn_fine]. eapply tune_zset; [exact HI|exact Hm|reflexivity| | |].
        - intros b N. unfold set_at. destruct (Z.eqb_spec b c); [contradiction|auto].
        - exact Y1.
        - unfold set_at. rewrite Z.eqb_refl. apply fine_seven, Hv. }
      destruct (Z.eqb_spec k 101) as [->|H101]; [injection Hf as <-; eapply KZ; [reflexivity|exact Hm|reflexivity..]|].
      destruct (Z.eqb_spec k 100) as [->|H100]; [|discriminate]. injection Hf as <-; eapply KZ; [reflexivity|exact Hm|reflexivity..].
    + subst k. eapply KZ; [reflexivity|exact Hm|reflexivity..].
    + subst k. eapply KZ; [reflexivity|exact Hm|reflexivity..].
    + rewrite P by (destruct Hk' as [-> | ->]; lia). apply K; reflexivity.
    + subst k. destruct (set_poly_eq _ _ _ _ Hs E) as (X1 & _ & _ & X2 & _). apply K; assumption.
    + subst k. split; assumption.
    + subst k. rewrite (resetAll_eq _ _ Hs Hc) in E. injection E as <- _. split; [exact HG|].
      change (121 =? 65) with false. change (121 =? 85) with false. change (121 =? 121) with true. cbv iota. cbn [tn_glide tn_fine]. eapply tune_zset; [exact HI|exact Hm|reflexivity| | |].
      * intros b N. unfold set_at. destruct (Z.eqb_spec b c); [contradiction|auto].
      * unfold set_at. rewrite Z.eqb_refl. reflexivity.
      * unfold set_at. rewrite Z.eqb_refl. reflexivity.
    + subst k. split; assumption.
    + rewrite P by (destruct Hk' as [-> | ->]; lia). eapply KZ; [reflexivity|exact Hm|reflexivity..].
    + destruct (Z.eq_dec k 85) as [->|N85].
      * destruct Hk' as [[[X|X] _]|[[X|[X|[X|X]]]|[_ X]]]; try discriminate X. rewrite HG in X. destruct (tn_all t) eqn:Et; [discriminate|].
        change (85 =? 65) with false. change (85 =? 85) with true. cbv iota. split; [cbn; rewrite HG; reflexivity|exact HI].
      * rewrite P by lia. split; assumption.
    + subst k. split; assumption.
    + rewrite P by (intros ->; apply Hk'; cbn; tauto). split; assumption.
    + subst k. apply K; reflexivity.
  - destruct Hop as (Hc & _). destruct (ok_ch_get _ _ Hs Hc) as (m & Hm & _).
    rewrite (midi_program_eq _ _ _ m Hm) in E. injection E as <- <-. eapply KZ; [reflexivity|exact Hm|reflexivity..].
  - destruct Hop as (Hc & _). destruct (ok_ch_get _ _ Hs Hc) as (m & Hm & _).
    rewrite (midi_pitch_bend_eq _ _ _ m Hm) in E. injection E as <- <-. eapply KZ; [reflexivity|exact Hm|reflexivity..].
  - destruct (is_gm_reset data) eqn:Eg.
    + rewrite (gm_sysex _ _ Eg) in E. destruct (gm_reset_eq s Hs) as (devs & o2 & o3 & E' & _). rewrite E' in E. injection E as <- <-.
      split; [exact HG|]. cbn [tn_glide tn_fine]. apply tune_default. reflexivity.
    + assert (N : (exists a, data = [0x00; 0x22; 0x77; 0x04; a]) \/ (forall a, data <> [0x00; 0x22; 0x77; 0x04; a]) /\ match data with
           | [a; b; c; d; e] =>
               if (a =? 0x00) && (b =? 0x22) && (c =? 0x77) && (d =? 0x04) then mkTune (negb (e =? 0)) (tn_glide t) (tn_fine t) else t
           | _ => t end = t).
      { destruct data as [|a [|b [|c [|d [|e [|]]]]]]; try (right; split; [discriminate|reflexivity]). destruct ((_ && _) && _) eqn:B.
        - left. exists e. apply andb_prop in B as [B B4]. apply andb_prop in B as [B B3]. apply andb_prop in B as [B1 B2].
          apply Z.eqb_eq in B1, B2, B3, B4. subst. reflexivity.
        - right. split; [|reflexivity]. intros x [= -> -> -> -> ->]. discriminate B. }
      destruct N as [(a & ->)|[N ->]].
      * change (midi_sysex [0; 34; 119; 4; a] s) with (WDone (md_set_nogm s (a =? 0)) []) in E. injection E as <- <-.
        split; [symmetry; apply negb_involutive|exact HI].
      * apply midi_sysex_result in E.
        destruct E as [|t1 s1 o1 Ed E|a b s1 Ed E|a Ed|a Ed|a Ed|a Ed|o1 _]; try (split; assumption); try (apply K; reflexivity).
        -- rewrite Ed in Eg. discriminate.
        -- destruct Hop as (H7 & _). rewrite Ed in H7. do 4 apply Forall_inv_tail in H7.
           assert (Hx := Forall_inv H7). assert (Hy := Forall_inv (Forall_inv_tail H7)). unfold seven in *.
           destruct (remap_eq a b s ltac:(apply Hs) ltac:(lia) ltac:(lia)) as [E'|(_ & i & d & a' & Hd & _ & E' & _)];
             rewrite E' in E; injection E as <-; apply K; reflexivity.
        -- destruct (set_dynamic_rest (negb (a =? 0)) s) as (X1 & _ & _ & X2 & _). apply K; assumption.
        -- destruct (N a Ed).
  - unfold reset in E. do 3 apply emit_inv in E as (? & E & ->). cbv zeta in E.
    rewrite reset_channels_eq in E by apply Hs. injection E as <- <-. split; [reflexivity|]. cbn [no_tuning tn_glide tn_fine].
    apply tune_default. reflexivity.
  - rewrite (midi_tick_eq _ Hs) in E. injection E as <- <-. apply K; reflexivity.
  - injection E as <- <-. apply K; reflexivity.
Qed.

Theorem tune_boot ops s o : boots_to ops s o -> midi_ok s /\ tune_inv (tuned ops) s.
Proof.
  intros Hb.
  apply (boot_induction tuning_after no_tuning (fun _ => True) tune_inv)
    with (ops := ops) (o := o); [| |apply Forall_forall; auto|exact Hb].
  - split; [reflexivity|]. cbn [no_tuning tn_glide tn_fine]. apply tune_default. reflexivity.
  - intros op h s0 s' o' H1 H2 H3 H4 H5 H6. apply (tune_step op h s0 s' o'); assumption.
Qed.
