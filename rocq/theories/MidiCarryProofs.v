(** Sounding device channels carry the settings of the MIDI channel they
    serve; the mapping table stays valid for arbitrary message bytes. *)
From Verif Require Import Base BaseLemmas PitchModel PitchProofs NotePriorityModel NotePriorityProofs SynthModel.
From Verif Require Import MidiModel MidiSpec MidiProofs MidiOkProofs MidiEqProofs MidiEffectProofs MidiNoteProofs MidiHistProofs MidiMapProofs MidiStaticProofs MidiChanProofs.

Lemma zget_In {A} (l : list A) i x : zget l i = Some x -> In x l.
Proof. unfold zget. destruct (i <? 0); [discriminate|]. apply nth_error_In. Qed.

Lemma only_last {A} (P : A -> Prop) (pre post a : list A) x y :
  a ++ [x] = pre ++ y :: post -> (forall z, In z a -> ~ P z) -> P y -> pre = a /\ post = [] /\ y = x.
Proof.
  intros E Hno Hy. revert a E Hno. induction pre as [|u pre IH]; intros [|w b] E Hno; cbn [app] in E.
  - injection E as <- <-. auto.
  - injection E as <- _. exfalso. apply (Hno w); [left; reflexivity|exact Hy].
  - injection E as _ E. exfalso. destruct pre; discriminate.
  - injection E as <- E. destruct (IH b E) as (-> & H2 & H3); [intros z Hz; apply Hno; right; exact Hz|]. auto.
Qed.

(** ** Settings carried by sounding device channels *)
Definition carried (s : midi) : Prop :=
  forall i d m, dev_at s i d -> d_on d = true -> ch_at s (d_midi d) m -> carries m d.
Definition same_levels (m m' : mchan) : Prop :=
  m_vol m' = m_vol m /\ m_pan m' = m_pan m /\ m_prog m' = m_prog m /\ m_bend m' = m_bend m.

Lemma carries_same m m' d : same_levels m m' -> carries m d -> carries m' d.
Proof. unfold same_levels, carries. intuition congruence. Qed.
Lemma same_dev_carries m d d' :
  d_vol d' = d_vol d -> d_pan d' = d_pan d -> d_prog d' = d_prog d -> d_bend d' = d_bend d -> carries m d -> carries m d'.
Proof. unfold carries. intuition congruence. Qed.

Lemma carried_all_off s : (forall i d, dev_at s i d -> d_on d = false) -> carried s.
Proof. intros H i d m Hd Hon. rewrite (H i d Hd) in Hon. discriminate. Qed.
(** Changing one channel's unrelated fields and device channels' unrelated fields. *)
Lemma carried_keep s s' :
  carried s ->
  (forall i d', dev_at s' i d' -> exists d, dev_at s i d /\
     (d_on d' = true -> d_on d = true /\ d_midi d' = d_midi d /\
        d_vol d' = d_vol d /\ d_pan d' = d_pan d /\ d_prog d' = d_prog d /\ d_bend d' = d_bend d)) ->
  (forall c m', ch_at s' c m' -> exists m, ch_at s c m /\ same_levels m m') ->
  carried s'.
Proof.
  intros H HD HC i d' m' Hd' Hon Hm'. destruct (HD i d' Hd') as (d & Hd & K).
  destruct (K Hon) as (K1 & K2 & K3 & K4 & K5 & K6). destruct (HC _ _ Hm') as (m & Hm & Hl). rewrite K2 in Hm.
  apply (carries_same m); [exact Hl|]. apply (same_dev_carries m d); auto. apply (H i d m); assumption.
Qed.
Lemma levels_refl m : same_levels m m. Proof. unfold same_levels; auto. Qed.
Lemma zset_levels s c m m' : ch_at s c m -> same_levels m m' ->
  forall b x, zget (zset (md_ch s) c m') b = Some x -> exists y, ch_at s b y /\ same_levels y x.
Proof.
  intros Hm Hl b x Hx. destruct (Z.eq_dec b c) as [->|Hb].
  - rewrite zget_zset_same in Hx by (eapply zget_Some; exact Hm). injection Hx as <-. eauto.
  - rewrite zget_zset_other in Hx by congruence. exists x. split; [exact Hx|apply levels_refl].
Qed.
Lemma glide_levels n d :
  d_on (glide_dev n d) = d_on d /\ d_midi (glide_dev n d) = d_midi d /\ d_vol (glide_dev n d) = d_vol d /\
  d_pan (glide_dev n d) = d_pan d /\ d_prog (glide_dev n d) = d_prog d /\ d_bend (glide_dev n d) = d_bend d.
Proof. unfold glide_dev. destruct (_ || _); [auto 7|]. cbv zeta. destruct (_ || _); cbn; auto 7. Qed.
Lemma tick_levels chs d :
  d_on (tick_dev chs d) = d_on d /\ d_midi (tick_dev chs d) = d_midi d /\ d_vol (tick_dev chs d) = d_vol d /\
  d_pan (tick_dev chs d) = d_pan d /\ d_prog (tick_dev chs d) = d_prog d /\ d_bend (tick_dev chs d) = d_bend d.
Proof. unfold tick_dev. destruct (zget _ _); [|auto 7]. destruct (_ && _ && _); [apply glide_levels|auto 7]. Qed.
Lemma cc_field_levels s k v m m' : cc_field s k v m = Some m' -> same_levels m m'.
Proof.
  unfold cc_field.
  destruct (k =? 5); [destruct (zget portaTimeToInterval v); [|discriminate]; intros [= <-]; repeat split; reflexivity|].
  destruct (k =? 86); [destruct (md_nogm s); [discriminate|]; intros [= <-]; repeat split; reflexivity|].
  destruct (k =? 65); [intros [= <-]; repeat split; reflexivity|].
  destruct (k =? 85); [destruct (md_nogm s); [discriminate|]; intros [= <-]; repeat split; reflexivity|].
  destruct (k =? 101); [intros [= <-]; repeat split; reflexivity|].
  destruct (k =? 100); [intros [= <-]; repeat split; reflexivity|]. discriminate.
Qed.
(** A level of channel [c] set both in the channel and in its device channels. *)
Lemma carried_level s c m (f : mchan -> mchan) (g : dev -> dev) :
  carried s -> ch_at s c m -> (forall d, d_on (g d) = d_on d /\ d_midi (g d) = d_midi d) ->
  (forall d, carries m d -> carries (f m) (g d)) ->
  carried (md_set_dev (md_set_ch s (zset (md_ch s) c (f m))) (map (at_chan c g) (md_dev s))).
Proof.
  intros H Hm Hg Hf i d' m' Hd' Hon Hm'. unfold dev_at, ch_at in *. cbn [md_dev md_ch md_set_dev md_set_ch] in *.
  apply dev_map in Hd' as (d & Hd & ->). unfold at_chan in *.
  destruct (Z.eqb_spec (d_midi d) c) as [Hc|Hc].
  - destruct (Hg d) as [G1 G2]. rewrite G1 in Hon. rewrite G2, Hc in Hm'.
    rewrite zget_zset_same in Hm' by (eapply zget_Some; exact Hm). injection Hm' as <-.
    apply Hf. apply (H i d); [exact Hd|exact Hon|]. unfold ch_at. rewrite Hc. exact Hm.
  - rewrite zget_zset_other in Hm' by congruence. apply (H i d); assumption.
Qed.

Lemma carried_step op (h : unit) s s' o :
  ~ remapping op -> mop_ok op -> midi_ok s -> carried s -> steps s op s' o -> midi_ok s' -> carried s'.
Proof.
  intros HP Hop Hs HI E _. unfold steps in E.
  assert (KD : forall i d', dev_at s i d' -> exists d, dev_at s i d /\
     (d_on d' = true -> d_on d = true /\ d_midi d' = d_midi d /\
        d_vol d' = d_vol d /\ d_pan d' = d_pan d /\ d_prog d' = d_prog d /\ d_bend d' = d_bend d)).
  { intros i d Hd. exists d. auto 8. }
  assert (KC : forall c m', ch_at s c m' -> exists m, ch_at s c m /\ same_levels m m').
  { intros c m Hm. exists m. split; [exact Hm|apply levels_refl]. }
  assert (Koff : forall c p, is_chan c -> midi_note_off c p s = WDone s' o -> carried s').
  { intros c p Hc E1. destruct (ok_ch_get _ _ Hs Hc) as (m & Hm & _).
    destruct (note_off_effect _ _ _ _ _ m Hs Hc Hm E1) as (_ & _ & st & _ & _ & ->).
    apply (carried_keep s); [exact HI| |].
    - intros i d' Hd'. apply dev_map in Hd' as (d & Hd & ->). exists d. split; [exact Hd|].
      unfold note_off_dev. destruct (serves_note c p d) eqn:Es; [|auto 8].
      assert (Hon : d_on d = true).
      { unfold serves_note, isChannelPlayingNote in Es. apply andb_prop in Es as [_ Es]. apply andb_prop in Es as [Es _]. exact Es. }
      destruct (falls_back s m c p); unfold retrig_dev, off_dev; [destruct (m_porta m)|]; cbn; auto 8; discriminate.
    - intros b x Hx. apply (zset_levels s c m (m_set_np m st) Hm ltac:(repeat split; reflexivity) b x Hx). }
  destruct op as [c p v|c p|c k v|c p|c b|data| | |cb]; cbn [midi_step mop_ok] in *.
  - destruct Hop as (Hc & Hp & _). destruct (Z.eqb_spec v 0) as [->|Hv]; [apply (Koff c p); auto|].
    destruct (ok_ch_get _ _ Hs Hc) as (m & Hm & _).
    destruct (midi_note_on_eq c p v s m Hs Hc Hp Hv Hm) as (s1 & o1 & E2 & R). rewrite E in E2. injection E2 as <- <-.
    assert (KZ : forall i d, dev_at s i d -> forall chs, (forall b x, zget chs b = Some x -> exists y, ch_at s b y /\ same_levels y x) ->
       zget chs c <> None ->
       forall m1, zget chs c = Some m1 -> forall e, carried (md_set_dev (md_set_ch s chs) (zset (md_dev s) i (started m1 c p e)))).
    { intros i d Hd chs Hch _ m1 Hm1 e j x mx Hx Hon Hmx. unfold dev_at, ch_at in *.
      cbn [md_dev md_ch md_set_dev md_set_ch] in *. destruct (Z.eq_dec j i) as [->|Hj].
      - rewrite zget_zset_same in Hx by (eapply zget_Some; exact Hd). injection Hx as <-.
        change (zget chs c = Some mx) in Hmx. rewrite Hm1 in Hmx. injection Hmx as <-. unfold carries. cbn. auto.
      - rewrite zget_zset_other in Hx by congruence. destruct (Hch _ _ Hmx) as (y & Hy & Hl).
        apply (carries_same y); [exact Hl|]. apply (HI j x); assumption. }
    destruct R as [|i d st Ht Ci Hd _ _ _ Hpo _|i d st Ht Ci Hd _ _ Ek _|i d Ht Ci Hd _].
    + exact HI.
    + apply (carried_keep s); [exact HI| |].
      * intros j x Hx. unfold dev_at in Hx. cbn [md_dev md_set_dev] in Hx. destruct (Z.eq_dec j i) as [->|Hj].
        -- rewrite zget_zset_same in Hx by (eapply zget_Some; exact Hd). injection Hx as <-. exists d. cbn. auto 8.
        -- rewrite zget_zset_other in Hx by congruence. exists x. auto 8.
      * intros b x Hx. apply (zset_levels s c m (m_set_vel (m_set_np m st) v) Hm ltac:(repeat split; reflexivity) b x Hx).
    + apply (KZ i d Hd).
      * intros b x Hx. apply (zset_levels s c m (m_set_vel (m_set_np m st) v) Hm ltac:(repeat split; reflexivity) b x Hx).
      * rewrite zget_zset_same by (eapply zget_Some; exact Hm). discriminate.
      * apply zget_zset_same. eapply zget_Some; exact Hm.
    + replace (md_set_dev s (zset (md_dev s) i (started m c p d)))
        with (md_set_dev (md_set_ch s (md_ch s)) (zset (md_dev s) i (started m c p d))) by (destruct s; reflexivity).
      apply (KZ i d Hd); [exact KC|rewrite Hm; discriminate|exact Hm].
  - destruct Hop. apply (Koff c p); assumption.
  - destruct Hop as (Hc & Hk & Hv). destruct (ok_ch_get _ _ Hs Hc) as (m & Hm & _).
    destruct (midi_cc_result _ _ _ _ m _ _ Hs Hc Hv Hm E) as (o' & R & _). clear E.
    destruct R as [m' Hf|Hk'|Hk'|Hk'|s1 Hk' E|Hk'|s1 o1 Hk' E|Hk' _|Hk' Hr|Hk'|o1 Hk' _|Hk'|devs o1 Hk' HH]; try exact HI.
    + apply (carried_keep s); [exact HI|exact KD|]. intros b x Hx. apply (zset_levels s c m m' Hm (cc_field_levels _ _ _ _ _ Hf) b x Hx).
    + apply (carried_level s c m (fun m => m_set_vol m v)); auto. unfold carries. cbn. tauto.
    + apply (carried_level s c m (fun m => m_set_pan m v)); auto. unfold carries. cbn. tauto.
    + apply (carried_keep s); [exact HI| |exact KC]. intros i d' Hd'. apply dev_map in Hd' as (d & Hd & ->).
      exists d. split; [exact Hd|]. unfold at_chan. destruct (_ =? _); cbn; auto 8. discriminate.
    + subst k. exfalso. apply HP. left. exists c, v. reflexivity.
    + subst k. exfalso. apply HP. right; left. exists c, v. reflexivity.
    + apply (carried_keep s); [exact HI|exact KD|]. intros b x Hx.
      apply (zset_levels s c m (set_range m v (k =? 6)) Hm ltac:(repeat split; reflexivity) b x Hx).
    + apply (carried_keep s); [exact HI| |exact KC]. destruct HH as [[-> _]|(-> & _)]; [exact KD|].
      intros i d'. unfold dev_at. cbn [md_dev md_set_dev]. rewrite dac_devs_get. destruct (zget (md_dev s) i) as [d|] eqn:Hd; [|discriminate]. intros [= <-].
      exists d. split; [reflexivity|]. unfold dac_dev. destruct (i =? 5); cbn; auto 8.
  - destruct Hop as (Hc & _). destruct (ok_ch_get _ _ Hs Hc) as (m & Hm & _).
    rewrite (midi_program_eq _ _ _ m Hm) in E. injection E as <- <-.
    apply (carried_level s c m (fun m => m_set_prog m p)); auto. unfold carries. cbn. tauto.
  - destruct Hop as (Hc & _). destruct (ok_ch_get _ _ Hs Hc) as (m & Hm & _).
    rewrite (midi_pitch_bend_eq _ _ _ m Hm) in E. injection E as <- <-.
    intros i d' m' Hd' Hon Hm'. unfold dev_at, ch_at in *. cbn [md_dev md_ch md_set_dev md_set_ch] in *.
    apply dev_map in Hd' as (d & Hd & ->). unfold at_chan in *.
    destruct (Z.eqb_spec (d_midi d) c) as [Hdc|Hdc].
    + assert (Ho : d_on d = true) by (destruct (d_on d) eqn:Ed; [reflexivity|congruence]).
      rewrite Ho in *. cbn [d_midi d_set_bend] in Hm'. rewrite Hdc in Hm'.
      rewrite zget_zset_same in Hm' by (eapply zget_Some; exact Hm). injection Hm' as <-.
      destruct (HI i d m Hd Ho) as (K1 & K2 & K3 & _); [unfold ch_at; rewrite Hdc; exact Hm|].
      unfold carries. cbn. auto.
    + rewrite zget_zset_other in Hm' by congruence. apply (HI i d); assumption.
  - apply midi_sysex_result in E. destruct E as [|t s1 o1 Ed E|a b s1 Ed E|a Ed|a Ed|a Ed|a Ed|o1 _]; try exact HI.
    + destruct (gm_reset_eq s Hs) as (devs & o2 & o3 & E' & Hd). rewrite E' in E. injection E as <- <-.
      apply carried_all_off. intros i d Hx. destruct Hd as (Hd & _). destruct (Hd i d Hx) as (d0 & d1 & _ & _ & ->). apply after_init_off.
    + exfalso. apply HP. right; right; left. exists [a; b]. unfold own_sysex. rewrite Ed. reflexivity.
    + exfalso. apply HP. right; right; right. exists [a]. unfold own_sysex. rewrite Ed. reflexivity.
  - unfold reset in E. do 3 apply emit_inv in E as (? & E & ->). cbv zeta in E.
    rewrite reset_channels_eq in E by apply Hs. injection E as <- <-.
    apply carried_all_off. intros i d Hx. unfold dev_at in Hx. cbn [md_dev] in Hx.
    apply reset_dev_get in Hx as (Hi & d0 & Hd & ->); [|apply Hs]. apply after_init_off.
  - rewrite (midi_tick_eq _ Hs) in E. injection E as <- <-.
    apply (carried_keep s); [exact HI| |exact KC]. intros i d' Hd'. apply dev_map in Hd' as (d & Hd & ->).
    exists d. split; [exact Hd|]. destruct (tick_levels (md_ch s) d) as (-> & -> & -> & -> & -> & ->). auto 8.
  - injection E as <- <-. exact HI.
Qed.
Lemma carried_boot ops s o : Forall (fun op => ~ remapping op) ops -> boots_to ops s o -> midi_ok s /\ carried s.
Proof.
  intros HP Hb.
  apply (boot_induction (fun (h : unit) _ => h) tt (fun op => ~ remapping op) (fun _ => carried))
    with (ops := ops) (o := o); [| |exact HP|exact Hb].
  - apply carried_all_off. intros i d Hd. eapply booted_dev in Hd. apply Hd.
  - intros op h s0 s' o' H1 H2 H3 H4 H5 H6. apply (carried_step op h s0 s' o'); assumption.
Qed.
Lemma sounding_settings ops s o i d :
  Forall (fun op => ~ remapping op) ops -> boots_to ops s o -> dev_at s i d -> d_on d = true -> is_chan (d_midi d) ->
  let t := settings ops (d_midi d) in
  d_vol d = st_vol t /\ d_pan d = st_pan t /\ d_prog d = st_prog t /\ d_bend d = st_bend t.
Proof.
  intros HP Hb Hd Hon Hc. destruct (carried_boot _ _ _ HP Hb) as [Hs H]. destruct (settings_boot _ _ _ Hb) as [_ H2].
  destruct (ok_ch_get _ _ Hs Hc) as (m & Hm & _). destruct (H i d m Hd Hon Hm) as (K1 & K2 & K3 & K4).
  destruct (H2 _ _ Hm) as (L1 & L2 & L3 & L4 & _). cbv zeta. repeat split; congruence.
Qed.

(** ** One step: a new level reaches every device channel of the MIDI channel *)
Lemma volume_reaches s s' o c v :
  midi_ok s -> is_chan c -> seven v -> steps s (MCc c 7 v) s' o ->
  forall i d, serves s c i d -> (exists d', serves s' c i d' /\ d_vol d' = v) /\
    (d_vol d = v \/ In (DVolume (d_ops d) (d_num d) v) o).
Proof.
  intros Hs Hc Hv E i d [Hd Hdc]. unfold steps in E. cbn [midi_step] in E.
  destruct (ok_ch_get _ _ Hs Hc) as (m & Hm & _).
  destruct (midi_cc_result _ _ _ _ m _ _ Hs Hc Hv Hm E) as (o' & R & ->).
  inversion R; subst; try lia; try discriminate.
  - split.
    + exists (d_set_vol d v). split; [|reflexivity]. split; [|reflexivity]. unfold dev_at in *. cbn [md_dev md_set_dev].
      rewrite zget_map, Hd. cbn [option_map]. unfold at_chan. rewrite Z.eqb_refl. reflexivity.
    + destruct (Z.eq_dec (d_vol d) v); [left; assumption|right]. apply in_app_iff. left. apply in_flat_map. exists d.
      split; [eapply zget_In; exact Hd|]. unfold calls_at. rewrite Z.eqb_refl. replace (d_vol d =? v) with false by lia. left; reflexivity.
  - match goal with H : ~ In _ _ |- _ => exfalso; apply H; cbn; tauto end.
Qed.
Lemma pan_reaches s s' o c v :
  midi_ok s -> is_chan c -> seven v -> steps s (MCc c 10 v) s' o ->
  forall i d, serves s c i d -> (exists d', serves s' c i d' /\ d_pan d' = v) /\
    (d_pan d = v \/ In (DPan (d_ops d) (d_num d) v) o).
Proof.
  intros Hs Hc Hv E i d [Hd Hdc]. unfold steps in E. cbn [midi_step] in E.
  destruct (ok_ch_get _ _ Hs Hc) as (m & Hm & _).
  destruct (midi_cc_result _ _ _ _ m _ _ Hs Hc Hv Hm E) as (o' & R & ->).
  inversion R; subst; try lia; try discriminate.
  - split.
    + exists (d_set_pan d v). split; [|reflexivity]. split; [|reflexivity]. unfold dev_at in *. cbn [md_dev md_set_dev].
      rewrite zget_map, Hd. cbn [option_map]. unfold at_chan. rewrite Z.eqb_refl. reflexivity.
    + destruct (Z.eq_dec (d_pan d) v); [left; assumption|right]. apply in_app_iff. left. apply in_flat_map. exists d.
      split; [eapply zget_In; exact Hd|]. unfold calls_at. rewrite Z.eqb_refl. replace (d_pan d =? v) with false by lia. left; reflexivity.
  - match goal with H : ~ In _ _ |- _ => exfalso; apply H; cbn; tauto end.
Qed.
Lemma program_reaches s s' o c v :
  midi_ok s -> is_chan c -> seven v -> steps s (MProgram c v) s' o ->
  forall i d, serves s c i d -> (exists d', serves s' c i d' /\ d_prog d' = v) /\
    (d_prog d = v \/ In (DProgram (d_ops d) (d_num d) v) o).
Proof.
  intros Hs Hc Hv E i d [Hd Hdc]. unfold steps in E. cbn [midi_step] in E.
  destruct (ok_ch_get _ _ Hs Hc) as (m & Hm & _).
  rewrite (midi_program_eq _ _ _ m Hm) in E. injection E as <- <-. split.
  - exists (d_set_prog d v). split; [|reflexivity]. split; [|exact Hdc]. unfold dev_at in *. cbn [md_dev md_set_dev].
    rewrite zget_map, Hd. cbn [option_map]. unfold at_chan. replace (d_midi d =? c) with true by lia. reflexivity.
  - destruct (Z.eq_dec (d_prog d) v); [left; assumption|right]. apply in_app_iff. left. apply in_flat_map. exists d.
    split; [eapply zget_In; exact Hd|]. unfold calls_at. replace (d_midi d =? c) with true by lia. replace (d_prog d =? v) with false by lia. left; reflexivity.
Qed.

(** Before a started note's key-on call, every level the device channel did
    not have yet has been sent to it. *)
Lemma note_on_synced s s' o c p v n pi ce w ve pre post m :
  midi_ok s -> is_chan c -> seven p -> v <> 0 -> steps s (MNoteOn c p v) s' o -> ch_at s c m ->
  o = pre ++ DNoteOn w n pi ce ve :: post ->
  exists i d d', dev_at s i d /\ serves s' c i d' /\ w = d_ops d /\ n = d_num d /\ ve = v /\ d_on d' = true /\ carries m d' /\
    (d_vol d = m_vol m \/ In (DVolume w n (m_vol m)) pre) /\
    (d_pan d = m_pan m \/ In (DPan w n (m_pan m)) pre) /\
    (d_prog d = m_prog m \/ In (DProgram w n (m_prog m)) pre).
Proof.
  intros Hs Hc Hp Hv E Hm Ho. unfold steps in E; cbn [midi_step] in E.
  destruct (midi_note_on_eq c p v s m Hs Hc Hp Hv Hm) as (s1 & o1 & E2 & R). rewrite E in E2. injection E2 as <- <-.
  assert (K : forall m1 e, same_levels m m1 -> start_calls m1 c p v e = pre ++ DNoteOn w n pi ce ve :: post ->
    w = d_ops e /\ n = d_num e /\ ve = v /\
    (d_vol e = m_vol m \/ In (DVolume w n (m_vol m)) pre) /\
    (d_pan e = m_pan m \/ In (DPan w n (m_pan m)) pre) /\
    (d_prog e = m_prog m \/ In (DProgram w n (m_prog m)) pre)).
  { intros m1 e (L1 & L2 & L3 & L4) Es. unfold start_calls in Es. rewrite app_assoc in Es.
    set (a := (if (d_midi e =? 9) && negb (c =? 9) then _ else _) ++ sync_calls m1 (prepared c p e)) in Es.
    assert (Hno : forall w' n' x y z, ~ In (DNoteOn w' n' x y z) a).
    { intros w' n' x y z Hin. unfold a in Hin. apply in_app_iff in Hin as [Hin|Hin].
      - destruct (_ && _); [destruct Hin as [Hin|[]]; discriminate|destruct Hin].
      - unfold sync_calls in Hin. repeat (apply in_app_iff in Hin as [Hin|Hin]); try (destruct Hin as [Hin|[]]; discriminate);
          destruct (_ =? _) in Hin; try (destruct Hin as [Hin|[]]; discriminate); destruct Hin. }
    assert (Epre : pre = a /\ post = [] /\ DNoteOn w n pi ce ve = DNoteOn (d_ops e) (d_num e) (pc_pitch (eff m1 (started m1 c p e))) (pc_cents (eff m1 (started m1 c p e))) v).
    { apply (only_last (fun x => exists w' n' x1 y z, x = DNoteOn w' n' x1 y z)); [exact Es| |eauto 8].
      intros x Hx (w' & n' & x1 & y & z & ->). apply (Hno _ _ _ _ _ Hx). }
    destruct Epre as (-> & _ & [= -> -> _ _ ->]). repeat (split; [reflexivity|]).
    assert (KS : forall x, In x (sync_calls m1 (prepared c p e)) -> In x a) by (intros x Hx; apply in_app_iff; right; exact Hx).
    rewrite <- L1, <- L2, <- L3. split; [|split].
    - destruct (Z.eq_dec (d_vol e) (m_vol m1)); [left; assumption|right]. apply KS. unfold sync_calls. cbn [d_vol prepared d_set_pitch d_set_cents d_set_on d_set_midi].
      replace (d_vol e =? m_vol m1) with false by lia. cbn. right; left; reflexivity.
    - destruct (Z.eq_dec (d_pan e) (m_pan m1)); [left; assumption|right]. apply KS. unfold sync_calls. cbn [d_pan prepared d_set_pitch d_set_cents d_set_on d_set_midi].
      replace (d_pan e =? m_pan m1) with false by lia. apply in_app_iff; right. apply in_app_iff; right. cbn. left; reflexivity.
    - destruct (Z.eq_dec (d_prog e) (m_prog m1)); [left; assumption|right]. apply KS. unfold sync_calls. cbn [d_prog prepared d_set_pitch d_set_cents d_set_on d_set_midi].
      replace (d_prog e =? m_prog m1) with false by lia. do 3 (apply in_app_iff; right). cbn. left; reflexivity. }
  assert (KD : forall i d m1 e, dev_at s i d -> zget (zset (md_dev s) i (started m1 c p e)) i = Some (started m1 c p e)).
  { intros i d m1 e Hd. apply zget_zset_same. eapply zget_Some; exact Hd. }
  destruct R as [|i d st Ht Ci Hd _ _ _ Hpo _|i d st Ht Ci Hd _ _ Ek _|i d Ht Ci Hd _].
  - destruct pre; discriminate.
  - destruct pre; discriminate.
  - destruct (K (m_set_vel (m_set_np m st) v) (d_set_glide d 0) ltac:(repeat split; reflexivity) Ho) as (K1 & K2 & K3 & K4).
    exists i, d, (started (m_set_vel (m_set_np m st) v) c p (d_set_glide d 0)). split; [exact Hd|].
    split; [split; [apply (KD i d _ _ Hd)|reflexivity]|]. repeat (split; [assumption || reflexivity|]).
    split; [unfold carries; cbn; auto|exact K4].
  - destruct (K _ _ (levels_refl m) Ho) as (K1 & K2 & K3 & K4).
    exists i, d, (started m c p d). split; [exact Hd|].
    split; [split; [apply (KD i d _ _ Hd)|reflexivity]|]. repeat (split; [assumption || reflexivity|]).
    split; [unfold carries; cbn; auto|exact K4].
Qed.
