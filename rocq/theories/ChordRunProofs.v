(** Chords in dynamic mode over a history of the whole interface. *)
From Verif Require Import Base BaseLemmas PitchModel PitchSpec PitchProofs NotePriorityModel SynthModel SynthSpec SynthProofs SynthMirrorProofs SynthClaimsProofs SynthViewProofs.
From Verif Require Import MidiModel MidiSpec MidiProofs MidiOkProofs MidiEqProofs MidiEffectProofs MidiCallProofs MidiNoteProofs MidiChanProofs MidiTuneProofs MidiDevProofs MidiInvProofs MidiPlaceProofs MidiClaimsProofs MidiHistProofs.
From Verif Require Import PsgModel DevModel DevSpec DevProofs AppModel AppSpec AppProofs AppTraceProofs AppClaimsProofs AppViewProofs AppKeyProofs SoundSpec AppSoundProofs AppToneProofs AppNoteProofs GlideProofs ChordSpec ChordProofs.

(** ** Power-on and the switch to dynamic mode *)
Lemma chord_start start s0 cs0 s cs : asks_dynamic start -> mop_ok start -> boots_to [MCallback true] s0 cs0 -> steps s0 start s cs ->
  chordal (held [start]) (group [start]) s /\ only_fm s /\ forall r n vel w, says r n vel s w.
Proof.
  intros A Ho B St. assert (Hs0 := boots_ok _ _ _ B).
  assert (E0 : s0 = md_set_cb booted true).
  { destruct (boots_run _ _ _ B) as (_ & o & E & _). cbn in E. injection E as <- _. reflexivity. }
  assert (C0 : md_ch s0 = md_ch booted) by (rewrite E0; reflexivity). assert (T0 : md_stick s0 = false) by (rewrite E0; reflexivity).
  assert (G0 : md_nogm s0 = false) by (rewrite E0; reflexivity). assert (D0 : md_dev s0 = md_dev booted) by (rewrite E0; reflexivity).
  assert (X : md_ch s = md_ch s0 /\ md_dyn s = true /\ md_stick s = md_stick s0 /\ md_nogm s = md_nogm s0 /\
    forall i d', dev_at s i d' -> exists d a, dev_at s0 i d /\ d' = d_set_midi d a).
  { unfold steps in St. destruct A as [(a & -> & Na)|[(c & v & -> & Hv)|(t & ->)]].
    - assert (E : s = set_dynamic_mode (b2z true) s0).
      { unfold own_sysex in St. cbn [midi_step] in St. cbn in St. injection St as <- _. destruct (Z.eqb_spec a 0); [contradiction|]. reflexivity. }
      destruct (set_dynamic_rest true s0) as (R1 & R2 & _ & R4 & R5 & _). rewrite E. repeat (split; [assumption|]).
      intros i d' Hd. unfold dev_at in Hd. rewrite set_dynamic_dev in Hd. destruct (zget (md_dev s0) i) as [d|] eqn:Ed; [|discriminate]. injection Hd as <-. eauto.
    - cbn [midi_step mop_ok] in *. destruct Ho as (Hc & Hk & Hv7). destruct (ok_ch_get _ _ Hs0 Hc) as (m & Hm & _).
      destruct (midi_cc_result _ _ _ _ m _ _ Hs0 Hc Hv7 Hm St) as (o' & R & _). clear St.
      assert (Rv : negb (RANGE v 2 =? 0) = true).
      { unfold RANGE. change (Z.quot 128 2) with 64. assert (1 <= Z.quot v 64) by (rewrite Z.quot_div_nonneg by lia; apply Z.div_le_lower_bound; lia).
        destruct (Z.eqb_spec (Z.quot v 64) 0); [lia|reflexivity]. }
      destruct R as [m' Hf|Hk'|Hk'|Hk'|s1 Hk' E|Hk'|s1 o1 Hk' E|Hk' _|Hk' Hr|Hk'|o1 Hk' _|Hk'|devs o1 Hk' HH]; try (exfalso; clear -Hk'; lia).
      + discriminate Hf.
      + rewrite Rv in E. destruct (set_poly_eq _ _ _ _ Hs0 E) as (R1 & R2 & _ & R4 & R5 & _ & _ & R8). repeat (split; [assumption|]).
        intros i d' Hd. unfold dev_at in Hd. rewrite R8 in Hd. destruct (zget (md_dev s0) i) as [d|] eqn:Ed; [|discriminate]. injection Hd as <-. eauto.
      + exfalso. apply Hk'. cbn. tauto.
    - cbn [midi_step] in St. rewrite MidiChanProofs.gm_sysex in St by reflexivity.
      assert (E : match general_midi_reset s0 with WDone x _ => x | WFault _ => s0 end =
        md_set_cb (md_set_dyn (md_set_dev booted (map (fun d => d_set_midi d 127) (md_dev booted))) true) true).
      { rewrite E0. vm_compute. reflexivity. }
      rewrite St in E. rewrite E, E0. clear E. repeat (split; [reflexivity|]). intros i d' Hd. unfold dev_at in *. cbn [md_dev md_set_cb md_set_dyn md_set_dev] in *.
      apply dev_map in Hd as (d & Hd & ->). eauto. }
  destruct X as (C1 & Dy & T1 & G1 & Dv).
  assert (Off : forall i d, dev_at s i d -> d_on d = false /\ d_glide d = 0).
  { intros i d' Hd. destruct (Dv i d' Hd) as (d & a & Hd0 & ->). unfold dev_at in Hd0. rewrite D0 in Hd0. destruct (booted_dev i d Hd0) as (X1 & X2 & _). auto. }
  assert (Hh : held [start] = []) by (destruct A as [(a & -> & _)|[(c & v & -> & _)|(t & ->)]]; reflexivity).
  assert (Hg : group [start] = fun _ => 0) by (destruct A as [(a & -> & _)|[(c & v & -> & _)|(t & ->)]]; reflexivity).
  rewrite Hh, Hg. split; [|split].
  - constructor; try congruence.
    + intros c m Hm. unfold ch_at in Hm. rewrite C1, C0 in Hm. destruct (booted_ch c m Hm) as [X1 X2]. split; [exact X2|]. split; [|rewrite X1; intros q []].
      change (md_ch booted) with init_chs in Hm. assert (Hc := zget_Some _ _ _ Hm). change (length init_chs) with 16%nat in Hc.
      assert (E := chan_at_init c ltac:(unfold is_chan; lia)). unfold chan_at in E. rewrite Hm in E. subst m. reflexivity.
    + intros i d Hd. destruct (Off i d Hd) as [X1 X2]. split; [exact X2|congruence].
    + intros x [].
    + intros i j d e Hd _ Od. destruct (Off i d Hd). congruence.
    + intros i d Hd Od. destruct (Off i d Hd). congruence.
  - intros i d Hd On. destruct (Off i d Hd). congruence.
  - intros r n vel w d m Hd On. destruct (Off n d Hd). congruence.
Qed.

(** ** The pitch of a sounding key *)
Lemma key_tune ms s cs c m d p : boots_to (MCallback true :: ms) s cs -> ch_at s c m -> d_pitch d = p -> d_cents d = 0 -> d_bend d = m_bend m ->
  0 <= bent ms c p < 25600 -> 0 <= pitched ms c p < 25600 -> pc_pitch (eff m d) = pitched ms c p / 100 /\ pc_cents (eff m d) = pitched ms c p mod 100.
Proof.
  intros B Hm P C Be L1 L2. assert (Hs := boots_ok _ _ _ B). destruct (ok_ch _ _ _ Hs Hm) as [Hok _].
  destruct (settings_boot _ _ _ B) as [_ S]. destruct (S c m Hm) as (_ & _ & _ & S4 & S5 & S6 & _).
  change (settings (MCallback true :: ms)) with (settings ms) in S4, S5, S6.
  destruct (tune_boot _ _ _ B) as [_ (_ & T)]. destruct (T c m Hm) as [_ T2].
  change (tn_fine (tuned (MCallback true :: ms)) c) with (tn_fine (tuned ms) c) in T2.
  destruct Hok as (_ & _ & _ & _ & Hb & R1 & R2 & _).
  assert (Q := eff_total m d). cbv zeta in Q. unfold pitched, bent in *.
  rewrite Be, S4, S5, S6, T2, P, C, Z.add_0_r in Q. apply Q; [rewrite <- S4; exact Hb|rewrite <- S5; exact R1|rewrite <- S6; exact R2|assumption|assumption].
Qed.

(** A key that may be pressed is at a pitch the chip has. *)
Lemma key_playable ms s cs c p v m d : boots_to (MCallback true :: (ms ++ [MNoteOn c p v])) s cs -> ch_at s c m ->
  0 <= bent ms c p -> 0 <= pitched ms c p -> 11 <= pitched ms c p / 100 <= 106 -> DevSpec.playable (pc_pitch (eff m (started m c p d))) = true.
Proof.
  intros Bs Hm L1 L2 L3. assert (Hs := boots_ok _ _ _ Bs). destruct (ok_ch _ _ _ Hs Hm) as [Hok _].
  assert (Eb : bent (ms ++ [MNoteOn c p v]) c p = bent ms c p) by (unfold bent, settings; rewrite fold_left_app; reflexivity).
  assert (Ep : pitched (ms ++ [MNoteOn c p v]) c p = pitched ms c p) by (unfold pitched; rewrite Eb; unfold tuned; rewrite fold_left_app; reflexivity).
  assert (U : pitched ms c p < 10700) by (destruct (Z_lt_le_dec (pitched ms c p) 10700) as [|Y]; [assumption|]; assert (107 <= pitched ms c p / 100) by (apply Z.div_le_lower_bound; lia); lia).
  assert (Bn : bent ms c p < 25600).
  { destruct (tune_boot _ _ _ Bs) as [_ (_ & T)]. destruct (T c m Hm) as [_ T2]. assert (T3 : m_fine m = tn_fine (tuned ms) c).
    { rewrite T2. unfold tuned. cbn [fold_left tuning_after]. rewrite fold_left_app. reflexivity. }
    destruct Hok as (_ & _ & _ & _ & _ & _ & _ & _ & _ & _ & _ & F). unfold pitched in U. lia. }
  destruct (key_tune _ _ _ c m (started m c p d) p Bs Hm eq_refl eq_refl eq_refl) as [P1 _]; [rewrite Eb; lia|rewrite Ep; lia|].
  rewrite P1, Ep. unfold DevSpec.playable. apply andb_true_intro; split; apply Z.leb_le; lia.
Qed.

(** The stack of keys has room. *)
Lemma few_keys ms s0 cs0 c : boots_to (MCallback true :: ms) s0 cs0 -> (length (held ms) < voices c (group ms c))%nat -> forall m, ch_at s0 c m -> (length (keys (m_np m)) < 10)%nat.
Proof.
  intros B0 L m Hm. assert (X := held_stack _ _ _ B0 c m Hm). unfold MidiPlaceProofs.held_on in X. rewrite map_length in X. change (held (MCallback true :: ms)) with (held ms) in X.
  assert (Y : (length (filter (fun k : Z * Z => (fst k =? c)%Z) (held ms)) <= length (held ms))%nat).
  { clear. induction (held ms) as [|x t IH]; cbn [filter]; [lia|]. destruct (_ =? _); cbn [length]; lia. }
  assert (voices c (group ms c) <= 9)%nat by (unfold voices; destruct (c =? 9); [destruct (_ || _); lia|]; destruct (_ =? 0); [lia|]; destruct (_ =? 1); [lia|]; destruct (_ =? 2); lia). lia.
Qed.

(** ** Playing *)
Definition chords_m (start : mop) (l : list mop) : Prop := forall a m b, l = a ++ m :: b -> chord_msg (start :: a) m.
Definition fm_only_m (start : mop) (l : list mop) : Prop := forall a c k v b, l = a ++ MNoteOn c k v :: b -> v <> 0 ->
  group (start :: a) c = 1 /\ ~ In (st_prog (settings (start :: a) c)) [80; 89; 99].
Definition at_chip (start : mop) (l : list mop) (s : midi) (cs : list dcall) : Prop :=
  chordal (held (start :: l)) (group (start :: l)) s /\ (fm_only_m start l -> only_fm s) /\
  forall r n, 0 <= n < 6 -> says r n (struck (start :: l)) s (fold_left (cv_step r n) (skipn 4 cs) (cv0 r)).
Lemma snoc_split {A} (a : A) (b : A) (l0 : list A) (op : A) (l : list A) : l0 ++ [op] = a :: b :: l ->
  l = [] /\ l0 = [a] /\ op = b \/ exists l', l = l' ++ [op] /\ l0 = a :: b :: l'.
Proof.
  intros E. destruct l as [|y t] eqn:El; [left|right].
  - assert (X : l0 ++ [op] = [a] ++ [b]) by exact E. apply app_inj_tail in X as [-> ->]. auto.
  - rewrite <- El in *. assert (N : l <> []) by (rewrite El; discriminate). clear El y t. destruct (exists_last N) as (l' & x & ->). assert (X : l0 ++ [op] = (a :: b :: l') ++ [x]) by exact E. apply app_inj_tail in X as [-> ->]. exists l'. auto.
Qed.

Lemma chord_run start : asks_dynamic start -> forall ops s cs, boots_to ops s cs -> forall l, ops = MCallback true :: start :: l -> chords_m start l -> at_chip start l s cs.
Proof.
  intros A. apply (boots_ind (fun ops s cs => forall l, ops = MCallback true :: start :: l -> chords_m start l -> at_chip start l s cs)).
  { intros l [=]. }
  intros ops0 op s0 cs0 s cs B0 Hs0 IH Ho St l E Cl. destruct (boots_rest _ _ _ B0) as [t Et].
  assert (Fold : forall r n, fold_left (cv_step r n) (skipn 4 (cs0 ++ cs)) (cv0 r) = fold_left (cv_step r n) cs (fold_left (cv_step r n) (skipn 4 cs0) (cv0 r))).
  { intros r n. rewrite Et. cbn [skipn Datatypes.app first_calls]. apply fold_left_app. }
  apply snoc_split in E as [(-> & -> & ->)|(l0 & -> & El)].
  { destruct (chord_start _ _ _ _ _ A Ho B0 St) as (S1 & S2 & S3). split; [exact S1|]. split; [auto|]. intros r n _. apply S3. }
  assert (Cl0 : chords_m start l0) by (intros a m b Eq; apply (Cl a m (b ++ [op])); rewrite Eq, <- app_assoc; reflexivity).
  destruct (IH l0 El Cl0) as (J & Fm & Sy). clear IH. assert (Cm := Cl l0 op [] eq_refl). rewrite El in B0. set (ms := start :: l0) in *.
  assert (Eh : held (start :: l0 ++ [op]) = held_after (held ms) op) by (unfold held; change (start :: l0 ++ [op]) with (ms ++ [op]); rewrite fold_left_app; reflexivity).
  assert (Eg : group (start :: l0 ++ [op]) = group_after (group ms) op) by (unfold group; change (start :: l0 ++ [op]) with (ms ++ [op]); rewrite fold_left_app; reflexivity).
  assert (Fm0 : fm_only_m start (l0 ++ [op]) -> only_fm s0).
  { intros X. apply Fm. intros a c k v b Eq. apply (X a c k v (b ++ [op])). rewrite Eq, <- app_assoc. reflexivity. }
  assert (Fin : chordal (held_after (held ms) op) (group_after (group ms) op) s -> (fm_only_m start (l0 ++ [op]) -> only_fm s) -> (forall r n, 0 <= n < 6 -> forall w, says r n (struck ms) s0 w -> says r n (struck_after (struck ms) op) s (fold_left (cv_step r n) cs w)) -> at_chip start (l0 ++ [op]) s (cs0 ++ cs)).
  { intros F1 F2 F3. split; [rewrite Eh, Eg; exact F1|]. split; [exact F2|]. intros r n Hn. rewrite Fold. assert (Ek : struck (start :: l0 ++ [op]) = struck_after (struck ms) op) by (unfold struck; change (start :: l0 ++ [op]) with (ms ++ [op]); rewrite fold_left_app; reflexivity).
    rewrite Ek. apply F3; [exact Hn|]. apply Sy, Hn. }
  assert (ND : forall j d, dev_at s0 j d -> no_dac d).
  { apply (no_dac_boot _ _ _ B0). constructor; [intros (x & y & [=])|]. constructor; [destruct A as [(a & -> & _)|[(c & v & -> & _)|(u & ->)]]; intros (x & y & [=])|].
    apply Forall_forall. intros m Hin. apply in_split in Hin as (a & b & Eq). specialize (Cl0 a m b Eq). intros (x & y & ->). cbn [chord_msg] in Cl0. lia. }
  assert (Ov : forall n d, 0 <= n < 6 -> dev_at s0 n d -> d_ops d = VFm).
  { intros n d Hn Hd. destruct (ok_dev _ _ _ Hs0 Hd) as [[(S1 & _) _] _]. destruct (S1 ltac:(lia)) as [_ [S3|[_ S3]]]; [exact S3|]. exfalso. exact (ND n d Hd S3). }
  assert (Off : forall c p, is_chan c -> midi_note_off c p s0 = WDone s cs ->
    held_after (held ms) op = filter (fun k => negb ((fst k =? c) && (snd k =? p))) (held ms) -> group_after (group ms) op = group ms -> struck_after (struck ms) op = struck ms -> at_chip start (l0 ++ [op]) s (cs0 ++ cs)).
  { intros c p Hc E1 E2 E3 E4. destruct (chord_release _ _ _ _ _ _ _ Hs0 Hc J E1) as ((X1 & X2) & X3). apply Fin; [rewrite E2, E3; exact X1|auto|]. rewrite E4. intros r n Hn w. apply X3, Hn. }
  assert (B1 := boots_snoc _ _ _ _ _ _ B0 Ho St).
  destruct op as [c p v|c p|c k v|c p|c b|data| | |cb]; cbn [mop_ok chord_msg] in *; try contradiction.
  - destruct Ho as (Hc & Hp & Hv7). destruct (Z.eqb_spec v 0) as [->|Hv].
    { apply (Off c p Hc); [exact St|reflexivity|reflexivity|reflexivity]. }
    destruct Cm as [->|(N9 & Nh & L & L1 & L2 & L3)]; [contradiction|].
    assert (Hs := boots_ok _ _ _ B1).
    assert (Bs : boots_to (MCallback true :: (ms ++ [MNoteOn c p v])) s (cs0 ++ cs)) by exact B1.
    destruct (chord_press (held ms) (group ms) s0 c p v s cs Hs0 Hc Hp Hv J N9 Nh) as (X1 & X2 & X3); [| exact L| |exact St|].
    + exact (few_keys ms s0 cs0 c B0 L).
    + intros m d Hm. exact (key_playable ms s (cs0 ++ cs) c p v m d Bs Hm L1 L2 L3).
    + apply Fin.
      * cbn [held_after group_after]. destruct (Z.eqb_spec v 0); [contradiction|]. exact X1.
      * intros F. destruct (F l0 c p v [] eq_refl Hv) as [F1 F2]. apply X2; [|exact F1|apply Fm0, F].
        intros m Hm. destruct (settings_boot _ _ _ B0) as [_ S]. destruct (S c m Hm) as (_ & _ & S3 & _). change (settings (MCallback true :: ms)) with (settings ms) in S3. rewrite S3. exact F2.
      * intros r n Hn w. apply X3; [exact Hn|intros d; apply Ov, Hn|..]; cbn [struck_after]; (destruct (Z.eqb_spec v 0); [contradiction|]).
        -- cbn [fst snd]. rewrite !Z.eqb_refl. reflexivity.
        -- intros [a b] Nx. cbn [fst snd]. destruct (Z.eqb_spec a c) as [->|]; [|reflexivity]. destruct (Z.eqb_spec b p) as [->|]; [contradiction Nx; reflexivity|reflexivity].
  - destruct Ho as (Hc & _). apply (Off c p Hc); [exact St|reflexivity|reflexivity|reflexivity].
  - destruct Ho as (Hc & Hk & Hv). destruct (chord_cc _ _ _ _ _ _ _ _ Hs0 Hc Hv J Cm St) as ((X1 & X2) & X3). apply Fin; auto. intros r n Hn w. apply X3.
  - destruct Ho as (Hc & _). destruct (chord_program _ _ _ _ _ _ _ Hs0 Hc J St) as ((X1 & X2) & X3). apply Fin; auto. intros r n Hn w. apply X3.
  - destruct Ho as (Hc & _). destruct (chord_bend _ _ _ _ _ _ _ Hs0 Hc J St) as ((X1 & X2) & X3). apply Fin; auto. intros r n Hn w. apply X3; [exact Hn|]. intros d. apply Ov, Hn.
  - destruct (chord_frame _ _ _ _ _ Hs0 J St) as ((X1 & X2) & X3). apply Fin; auto. intros r n Hn w. apply X3.
Qed.

Lemma chords_messages start play : chords start play -> chords_m start (map message play).
Proof.
  intros H a m b E. apply map_eq_app in E as (l1 & l2 & -> & <- & E). destruct l2 as [|op l2]; [discriminate|]. injection E as <- <-. exact (H l1 op l2 eq_refl).
Qed.
Lemma fm_messages start play : fm_only start play -> fm_only_m start (map message play).
Proof.
  intros H a c k v b E Hv. apply map_eq_app in E as (l1 & l2 & -> & <- & E). destruct l2 as [|op l2]; [discriminate|]. injection E as E1 _.
  destruct op as [m|]; [|discriminate E1]. cbn [message] in E1. subst m. exact (H l1 c k v l2 eq_refl Hv).
Qed.

(** The voice of a key. *)
Definition voice_in (s : midi) (x : Z * Z) : Z :=
  match first_dev (md_dev s) (fun d => d_on d && (d_midi d =? fst x) && (d_pitch d =? snd x)) (upto 0 12) with Some i => i | None => 0 end.
Lemma voice_at h g s x : midi_ok s -> chordal h g s -> In x h -> exists d, dev_at s (voice_in s x) d /\ d_on d = true /\ key_of d = x.
Proof.
  intros Hs J Hx. unfold voice_in. destruct (first_dev _ _ _) as [i|] eqn:E.
  - apply first_dev_some in E as (_ & d & Hd & P). exists d. split; [exact Hd|]. apply andb_prop in P as [P P3]. apply andb_prop in P as [P1 P2].
    split; [exact P1|]. unfold key_of. destruct x as [a b]. cbn in *. f_equal; apply Z.eqb_eq; assumption.
  - exfalso. destruct (cd_held _ _ _ J x Hx) as (i & d & Hd & On & K). assert (R := zget_Some _ _ _ Hd). destruct Hs as [L _]. rewrite L in R.
    assert (X := first_dev_none _ _ _ _ i d E ltac:(lia) Hd). cbv beta in X. unfold key_of in K. subst x. cbn [fst snd] in X. rewrite On, !Z.eqb_refl in X. discriminate.
Qed.

Lemma chord_full r hw mem start play : rom_ok r -> mem_ok mem -> Forall aop_ok (AMsg start :: play) -> asks_dynamic start -> chords start play ->
  let ms := start :: map message play in
  exists s tr voice, history r hw mem (AMsg start :: play) s tr /\
    (forall x, In x (held ms) -> 0 <= voice x < 10) /\
    (forall x y, In x (held ms) -> In y (held ms) -> voice x = voice y -> x = y) /\
    (forall n, 0 <= n < 6 -> (exists x, In x (held ms) /\ voice x = n) /\ key_state tr n = Some true \/
                             ~ (exists x, In x (held ms) /\ voice x = n) /\ key_state tr n = Some false) /\
    (forall c k, In (c, k) (held ms) -> c <> 9 -> voice (c, k) < 6 -> let x := pitched ms c k in 0 <= bent ms c k < 25600 -> 0 <= x < 25600 ->
       chip_freq tr (voice (c, k)) = Some (fm_note r (x / 100) (x mod 100))) /\
    ((fm_only start play -> forall x, In x (held ms) -> voice x < 6) /\ forall k, In (9, k) (held ms) -> voice (9, k) < 6) /\
    (forall x, In x (held ms) -> exists d, dev_at (a_midi s) (voice x) d /\ d_on d = true /\ key_of d = x) /\
    (forall x, In x (held ms) -> voice x < 6 -> f_vel (fm_of (a_dev s) (voice x)) = struck ms x).
Proof.
  intros Hr Hm Ho A C ms. assert (Cm := chords_messages _ _ C).
  assert (W : forall P : mop -> Prop, (forall c p v, ~ P (MNoteOn c p v)) -> (forall c p, ~ P (MNoteOff c p)) -> (forall c p, ~ P (MProgram c p)) -> (forall c p, ~ P (MBend c p)) ->
    (forall c k v, k = 7 \/ k = 10 \/ k = 86 -> ~ P (MCc c k v)) -> ~ P MTick -> (gm_reset_msg start \/ (forall c v, ~ P (MCc c 84 v)) /\ (forall a, ~ P (own_sysex 3 [a]))) -> (~ gm_reset_msg start \/ forall t, ~ P (MSysex ([0x7E; 0x7F; 0x09; 0x01] ++ t))) -> without P (AMsg start :: play)).
  { intros P P1 P2 P3 P4 P5 P6 P7 P9 m [[= <-]|Hin].
    - destruct A as [(a & -> & _)|[(c & v & -> & _)|(t & ->)]].
      + destruct P7 as [(t & [=])|[_ P8]]. apply P8.
      + destruct P7 as [(t & [=])|[P8 _]]. apply P8.
      + destruct P9 as [P9|P9]; [|apply P9]. contradiction P9. exists t. reflexivity.
    - apply in_split in Hin as (a & b & E). specialize (C a (AMsg m) b E). cbn [message] in C. destruct m; cbn [chord_msg] in C; auto; contradiction. }
  assert (W78 : without (is_cc 78) (AMsg start :: play)).
  { apply W; try (intros; intros (x & y & [=]); fail); try (right; intros; intros (x & y & [=]); fail); [intros; intros (x & y & [=]); lia|right; split; intros; intros (x & y & [=])]. }
  assert (W121 : without (is_cc 121) (AMsg start :: play)).
  { apply W; try (intros; intros (x & y & [=]); fail); try (right; intros; intros (x & y & [=]); fail); [intros; intros (x & y & [=]); lia|right; split; intros; intros (x & y & [=])]. }
  assert (Wr : without raw_write (AMsg start :: play)).
  { apply W; try (intros; intros [(x & [=])|(x & [=])]; fail); [right; split; intros; intros [(x & [=])|(x & [=])]|right; intros; intros [(x & [=])|(x & [=])]]. }
  assert (Wg : without remapping (AMsg start :: play) \/ without gm_reset_msg (AMsg start :: play)).
  { destruct A as [(a & E & _)|[(c & v & E & _)|G]]; [right..|left].
    - apply W; try (intros; intros (x & [=]); fail); [right; split; intros; intros (x & [=])|left; rewrite E; intros (x & [=])].
    - apply W; try (intros; intros (x & [=]); fail); [right; split; intros; intros (x & [=])|left; rewrite E; intros (x & [=])].
    - apply W; try (intros; intros [(x & y & [=])|[(x & y & [=])|[(x & [=])|(x & [=])]]]; fail); [intros ? ? ? Hk [(x & y & [=])|[(x & y & [=])|[(x & [=])|(x & [=])]]]; lia|left; exact G|right; intros t [(x & y & [=])|[(x & y & [=])|[(x & [=])|(x & [=])]]]]. }
  assert (Wo : without odd_envelope (AMsg start :: play)).
  { apply W; try (intros; intros (x & [=] & _); fail); [right; split; intros; intros (x & [=] & _)|right; intros; intros (x & [=] & _)]. }
  destruct (history_dacless r hw mem _ Hr Hm Ho W78 Wo) as (s & tr & H). exists s, tr, (voice_in (a_midi s)). split; [exact H|].
  destruct (history_played _ _ _ _ _ _ H) as (Hi & cs & B & P). assert (Rw := history_not_raw _ _ _ B Wr). assert (Hs := boots_ok _ _ _ B). cbn [map message] in B.
  destruct (chord_run start A _ _ _ B (map message play) eq_refl Cm) as (J & Fm & Sy). fold ms in J, B.
  assert (Va := fun x => voice_at _ _ _ x Hs J).
  split; [|split; [|split; [|split; [|split; [|split]]]]].
  - intros x Hx. destruct (Va x Hx) as (d & Hd & On & _). assert (R := zget_Some _ _ _ Hd). destruct (cd_dev _ _ _ J _ d Hd) as [_ X]. destruct (X On) as (X1 & _). lia.
  - intros x y Hx Hy E. destruct (Va x Hx) as (d & Hd & _ & K). destruct (Va y Hy) as (e & He & _ & K'). rewrite E in Hd. unfold dev_at in *. congruence.
  - intros n Hn. destruct (c31_keys r hw mem _ s tr n H Hn Wr W121 W78 Wg) as (b & d & K & Hd & Ob).
    destruct (d_on d) eqn:On.
    + left. destruct (cd_dev _ _ _ J n d Hd) as [_ X]. destruct (X On) as (_ & _ & X3 & X4 & _). split.
      * exists (key_of d). split; [exact X3|]. destruct (Va _ X3) as (e & He & Oe & Ke). exact (cd_one _ _ _ J _ _ e d He Hd Oe On Ke).
      * destruct (ok_ch_get _ _ Hs X4) as (m & Hmm & _). destruct (Sy r n Hn d m Hd On Hmm) as [Y _].
        destruct (played_view r Hr mem Hm n cs _ _ Hn P (boots_calls_ok _ _ _ B)) as (_ & _ & _ & (_ & _ & _ & V) & _).
        destruct (V (cv_raw_free_all r n _ (cv0 r) Rw eq_refl)) as [V1 _]. rewrite V1. exact Y.
    + right. split.
      * intros (x & Hx & E). destruct (Va x Hx) as (e & He & Oe & _). rewrite E in He. unfold dev_at in *. congruence.
      * rewrite K. destruct b; [|reflexivity]. discriminate (Ob eq_refl).
  - intros c k Hx N9 Lv x L1 L2. destruct (Va _ Hx) as (d & Hd & On & K). set (n := voice_in (a_midi s) (c, k)) in *. assert (R := zget_Some _ _ _ Hd). assert (Hn : 0 <= n < 6) by lia.
    destruct (cd_dev _ _ _ J n d Hd) as [_ X]. destruct (X On) as (_ & X2 & _ & X4 & X5). unfold key_of in K. injection K as K1 K2.
    destruct (ok_ch_get _ _ Hs X4) as (m & Hmm & _). destruct (Sy r n Hn d m Hd On Hmm) as (_ & Y & _).
    destruct (played_view r Hr mem Hm n cs _ _ Hn P (boots_calls_ok _ _ _ B)) as (_ & _ & _ & (_ & _ & _ & V) & _).
    destruct (V (cv_raw_free_all r n _ (cv0 r) Rw eq_refl)) as [_ V2]. rewrite V2, Y by congruence. rewrite K1 in Hmm.
    destruct (key_tune ms _ _ c m d k B Hmm K2 X2 (X5 m ltac:(rewrite K1; exact Hmm)) L1 L2) as [T1 T2]. unfold tune. rewrite T1, T2, octave_key. reflexivity.
  - split.
    + intros F x Hx. destruct (Va x Hx) as (d & Hd & On & _). exact (Fm (fm_messages _ _ F) _ d Hd On).
    + intros k Hx. destruct (Va _ Hx) as (d & Hd & On & K). apply (cd_drum _ _ _ J _ d Hd On). unfold key_of in K. congruence.
  - exact Va.
  - intros x Hx Lv. destruct (Va _ Hx) as (d & Hd & On & K). set (n := voice_in (a_midi s) x) in *. assert (R := zget_Some _ _ _ Hd). assert (Hn : 0 <= n < 6) by lia.
    destruct (cd_dev _ _ _ J n d Hd) as [_ X]. destruct (X On) as (_ & _ & _ & X4 & _).
    destruct (ok_ch_get _ _ Hs X4) as (m & Hmm & _). destruct (Sy r n Hn d m Hd On Hmm) as (_ & _ & Y).
    destruct (played_view r Hr mem Hm n cs _ _ Hn P (boots_calls_ok _ _ _ B)) as (_ & V & _). rewrite V, Y, K. reflexivity.
Qed.
Theorem chord_heard r hw mem start play : rom_ok r -> mem_ok mem -> Forall aop_ok (AMsg start :: play) -> asks_dynamic start -> chords start play ->
  let ms := start :: map message play in
  exists s tr voice, history r hw mem (AMsg start :: play) s tr /\
    (forall x, In x (held ms) -> 0 <= voice x < 10) /\
    (forall x y, In x (held ms) -> In y (held ms) -> voice x = voice y -> x = y) /\
    (forall n, 0 <= n < 6 -> (exists x, In x (held ms) /\ voice x = n) /\ key_state tr n = Some true \/
                             ~ (exists x, In x (held ms) /\ voice x = n) /\ key_state tr n = Some false) /\
    (forall c k, In (c, k) (held ms) -> c <> 9 -> voice (c, k) < 6 -> let x := pitched ms c k in 0 <= bent ms c k < 25600 -> 0 <= x < 25600 ->
       chip_freq tr (voice (c, k)) = Some (fm_note r (x / 100) (x mod 100))) /\
    ((fm_only start play -> forall x, In x (held ms) -> voice x < 6) /\ forall k, In (9, k) (held ms) -> voice (9, k) < 6).
Proof.
  intros Hr Hm Ho A C ms. destruct (chord_full r hw mem start play Hr Hm Ho A C) as (s & tr & voice & H & H1 & H2 & H3 & H4 & H5 & _). exists s, tr, voice. auto 10.
Qed.

Lemma chord_no_drums start play : gm_reset_msg start -> chords start play -> drums_in_order (start :: map message play).
Proof.
  intros (t & ->) C. enough (fold_left drum_phase (MSysex ([0x7E; 0x7F; 0x09; 0x01] ++ t) :: map message play) (Some 0) = Some 1 \/ fold_left drum_phase (MSysex ([0x7E; 0x7F; 0x09; 0x01] ++ t) :: map message play) (Some 0) = Some 2) as E by (unfold drums_in_order; destruct E as [E|E]; rewrite E; discriminate).
  set (start := MSysex _) in *. induction play as [|op play IH] using rev_ind.
  - left. reflexivity.
  - assert (C0 : chords start play) by (intros a o b E; apply (C a o (b ++ [op])); rewrite E, <- app_assoc; reflexivity).
    specialize (IH C0). specialize (C play op [] eq_refl). rewrite map_app. change (start :: map message play ++ map message [op]) with ((start :: map message play) ++ [message op]).
    rewrite fold_left_app. cbn [fold_left] in IH |- *.
    destruct (message op) as [c p v|c p|c k v|c p|c b|data| | |cb]; cbn [chord_msg] in C; try contradiction; destruct IH as [-> | ->]; cbn [drum_phase]; auto;
      destruct ((c =? 9) && negb (v =? 0)); auto.
Qed.

Lemma song_without start play : gm_reset_msg start -> chords start play -> let all := AMsg start :: play in
  without remapping all /\ without (is_cc 78) all /\ without (is_cc 77) all /\ without raw_write all /\ without stores all /\ without edits_fm all.
Proof.
  intros A C all. unfold all.
  assert (Q : forall P : mop -> Prop, (forall c p v, ~ P (MNoteOn c p v)) -> (forall c p, ~ P (MNoteOff c p)) -> (forall c p, ~ P (MProgram c p)) -> (forall c p, ~ P (MBend c p)) ->
    (forall c k v, k = 7 \/ k = 10 \/ k = 86 -> ~ P (MCc c k v)) -> ~ P MTick -> (forall t, ~ P (MSysex ([0x7E; 0x7F; 0x09; 0x01] ++ t))) -> without P (AMsg start :: play)).
  { intros P P1 P2 P3 P4 P5 P7 P6 m [[= <-]|Hin]; [destruct A as (u & ->); apply P6|].
    apply in_split in Hin as (a & b & E). specialize (C a (AMsg m) b E). cbn [message] in C. destruct m; cbn [chord_msg] in C; auto; contradiction. }
  assert (Wm : without remapping (AMsg start :: play)).
  { apply Q; try (intros; intros [(? & ? & [=])|[(? & ? & [=])|[(? & [=])|(? & [=])]]]; fail). intros ? ? ? Hk [(? & ? & [=])|[(? & ? & [=])|[(? & [=])|(? & [=])]]]; lia. }
  assert (W78 : without (is_cc 78) (AMsg start :: play)) by (apply Q; try (intros; intros (? & ? & [=]); fail); intros ? ? ? Hk (? & ? & [=]); lia).
  assert (W77 : without (is_cc 77) (AMsg start :: play)) by (apply Q; try (intros; intros (? & ? & [=]); fail); intros ? ? ? Hk (? & ? & [=]); lia).
  assert (Wr : without raw_write (AMsg start :: play)) by (apply Q; intros; intros [(? & [=])|(? & [=])]).
  assert (Wst : without stores (AMsg start :: play)).
  { apply Q; try (intros; intros [(? & ? & [=])|(? & [=])]; fail). intros ? ? ? Hk [(? & ? & [=])|(? & [=])]; lia. }
  assert (We : without edits_fm (AMsg start :: play)).
  { apply Q; try (intros; intros (? & ? & ? & [=] & _); fail). intros a b v Hk (x1 & x2 & x3 & [= <- <- <-] & F & _). apply F. destruct Hk as [->|[->| ->]]; reflexivity. }
  auto 10.
Qed.
(** After a General MIDI reset: with instrument, level and side. *)
Lemma chord_song r hw mem start play : rom_ok r -> mem_ok mem -> Forall aop_ok (AMsg start :: play) -> gm_reset_msg start -> chords start play ->
  let ms := start :: map message play in
  exists s tr voice, history r hw mem (AMsg start :: play) s tr /\
    (forall x, In x (held ms) -> 0 <= voice x < 10) /\
    (forall x y, In x (held ms) -> In y (held ms) -> voice x = voice y -> x = y) /\
    (forall n, 0 <= n < 6 -> (exists x, In x (held ms) /\ voice x = n) /\ key_state tr n = Some true \/
                             ~ (exists x, In x (held ms) /\ voice x = n) /\ key_state tr n = Some false) /\
    ((fm_only start play -> forall x, In x (held ms) -> voice x < 6) /\ forall k, In (9, k) (held ms) -> voice (9, k) < 6) /\
    (forall x, In x (held ms) -> exists d, dev_at (a_midi s) (voice x) d /\ d_on d = true /\ key_of d = x) /\
    (forall x, In x (held ms) -> voice x < 6 -> f_vel (fm_of (a_dev s) (voice x)) = struck ms x) /\
    forall c k, In (c, k) (held ms) -> c <> 9 -> voice (c, k) < 6 -> let n := voice (c, k) in let t := settings ms c in
      let p := nth (Z.to_nat (st_prog t)) (rom_presets r) no_preset in let x := pitched ms c k in
      (0 <= bent ms c k < 25600 -> 0 <= x < 25600 -> chip_freq tr n = Some (fm_note r (x / 100) (x mod 100))) /\
      plays_preset (ym_regs tr) n p /\ chip_st (ym_regs tr) n = Some (pan_side (st_pan t)) /\
      (n <> 2 \/ without sm_note play -> plays_level (ym_regs tr) n p (loudness (st_vol t) (struck ms (c, k)))).
Proof.
  intros Hr Hm Ho A C ms. assert (A' : asks_dynamic start) by (right; right; exact A).
  destruct (chord_full r hw mem start play Hr Hm Ho A' C) as (s & tr & voice & H & H1 & H2 & H3 & H4 & H5 & H6 & H7). fold ms in H1, H2, H3, H4, H5, H6, H7.
  exists s, tr, voice. repeat (split; [assumption|]). intros c k Hx N9 Lv n t p x. destruct (H6 _ Hx) as (d & Hd & On & K). fold n in Hd, Lv.
  assert (Hn : 0 <= n < 6) by (assert (Y := H1 _ Hx); fold n in Y; lia). unfold key_of in K. injection K as K1 K2.
  destruct (song_without _ _ A C) as (Wm & W78 & W77 & Wr & Wst & We).
  assert (Dr := chord_no_drums _ _ A C). assert (N9' : d_midi d <> 9) by (rewrite K1; exact N9).
  split; [intros L1 L2; exact (H4 c k Hx N9 Lv L1 L2)|]. unfold p, t. rewrite <- K1.
  split; [exact (instrument_settings r hw mem _ s tr H n Hn d Hd On Wm W78 Wr We Wst Dr N9')|].
  split; [exact (side_settings r hw mem _ s tr H n Hn d Hd On Wm W78 Wr W77)|].
  intros Hsm. assert (Hsm' : n <> 2 \/ without sm_note (AMsg start :: play)).
  { destruct Hsm as [Hsm|Hsm]; [left; exact Hsm|right]. intros m [[= <-]|Hin]; [destruct A as (u & ->); intros (? & ? & ? & [=] & _)|exact (Hsm m Hin)]. }
  assert (L := level_settings r hw mem _ s tr H n Hn d Hd On Wm W78 Wr We Wst Dr N9' Hsm'). cbv zeta in L.
  unfold n in L at 2. rewrite (H7 _ Hx Lv) in L. rewrite K1 in *. exact L.
Qed.
