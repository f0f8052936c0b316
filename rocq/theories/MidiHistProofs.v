(** Claims about whole histories: held keys, percussion, static mapping. *)
From Verif Require Import Base BaseLemmas PitchModel PitchProofs NotePriorityModel NotePriorityProofs SynthModel.
From Verif Require Import MidiModel MidiSpec MidiProofs MidiOkProofs MidiEqProofs MidiEffectProofs MidiNoteProofs.

(** ** What a message other than a note does to a device channel *)
Definition same_note (d d' : dev) : Prop :=
  d_on d' = d_on d /\ d_midi d' = d_midi d /\ d_pitch d' = d_pitch d /\ d_glide d' = d_glide d.
Definition fate (op : mop) (s : midi) (d d' : dev) : Prop :=
  (d_on d' = false /\ (d_glide d' = d_glide d \/ d_glide d' = 0)) \/ same_note d d' \/
  (((d_on d' = d_on d /\ d_pitch d' = d_pitch d) /\ d_glide d' = d_glide d) /\ remapping op) \/ (op = MTick /\ d' = tick_dev (md_ch s) d).
Definition ch_fate (op : mop) (m m' : mchan) : Prop :=
  (keys (m_np m') = keys (m_np m) \/ keys (m_np m') = []) /\
  (m_porta m' = m_porta m \/ m_porta m' = false \/ is_cc 65 op).
Definition not_note (op : mop) : Prop := match op with MNoteOn _ _ _ | MNoteOff _ _ => False | _ => True end.

Lemma same_note_refl d : same_note d d. Proof. unfold same_note; auto. Qed.
Lemma ch_fate_refl op m : ch_fate op m m. Proof. unfold ch_fate; auto. Qed.
Lemma synced_note m d : same_note d (synced m d).
Proof. destruct d. unfold synced, same_note. cbn. auto. Qed.
Lemma zset_ch_fate op l c m m' : zget l c = Some m -> ch_fate op m m' ->
  forall b x', zget (zset l c m') b = Some x' -> exists x, zget l b = Some x /\ ch_fate op x x'.
Proof.
  intros Hm Hf b x' Hx. destruct (Z.eq_dec b c) as [->|Hb].
  - rewrite zget_zset_same in Hx by (eapply zget_Some; exact Hm). injection Hx as <-. eauto.
  - rewrite zget_zset_other in Hx by congruence. exists x'. split; [exact Hx|apply ch_fate_refl].
Qed.
Lemma init_keys i : keys (m_np (init_midi_channel i)) = [].
Proof. apply keys_init. Qed.
Lemma init_fate op i m : ch_fate op m (init_midi_channel i).
Proof. split; [right; apply init_keys|right; left; reflexivity]. Qed.
Lemma init_chs_fate op s : midi_ok s ->
  forall c m', zget init_chs c = Some m' -> exists m, ch_at s c m /\ ch_fate op m m'.
Proof.
  intros Hs c m' Hm. assert (Hc := zget_Some _ _ _ Hm). change (length init_chs) with 16%nat in Hc.
  destruct (ok_ch_get s c Hs) as (m & Hm0 & _); [unfold is_chan; lia|]. exists m. split; [exact Hm0|].
  assert (E := chan_at_init c ltac:(unfold is_chan; lia)). unfold chan_at in E. rewrite Hm in E. subst m'. apply init_fate.
Qed.
Lemma fresh_off i d : d_on (fresh_dev i d) = false /\ d_glide (fresh_dev i d) = 0.
Proof. unfold fresh_dev. destruct (_ <=? _); [|destruct (_ <=? _)]; auto. Qed.
Lemma after_init_off dyn i d : d_on (dev_after_init dyn i d) = false /\ d_glide (dev_after_init dyn i d) = 0.
Proof.
  unfold dev_after_init. cbn [d_on d_glide d_set_midi].
  destruct (synced_note (init_midi_channel i) (fresh_dev i d)) as (-> & _ & _ & ->). apply fresh_off.
Qed.

Lemma other_step op s s' o :
  midi_ok s -> mop_ok op -> not_note op -> steps s op s' o ->
  (forall i d', dev_at s' i d' -> exists d, dev_at s i d /\ fate op s d d') /\
  (forall c m', ch_at s' c m' -> exists m, ch_at s c m /\ ch_fate op m m').
Proof.
  intros Hs Hop Hn E. unfold steps in E.
  assert (KD : (forall i d', dev_at s i d' -> exists d, dev_at s i d /\ fate op s d d')).
  { intros i d Hd. exists d. split; [exact Hd|]. right; left. apply same_note_refl. }
  assert (KC : forall c m', ch_at s c m' -> exists m, ch_at s c m /\ ch_fate op m m').
  { intros c m Hm. exists m. split; [exact Hm|apply ch_fate_refl]. }
  assert (KM : forall (f : dev -> dev) i d', (forall d, fate op s d (f d)) -> zget (map f (md_dev s)) i = Some d' ->
     exists d, dev_at s i d /\ fate op s d d').
  { intros f i d' Hf H. apply dev_map in H as (d & Hd & ->). exists d. split; [exact Hd|apply Hf]. }
  assert (KA : forall c g, (forall d, same_note d (g d)) -> forall d, fate op s d (at_chan c g d)).
  { intros c g Hg d. right; left. unfold at_chan. destruct (_ =? _); [apply Hg|apply same_note_refl]. }
  assert (KR : remapping op -> forall (f : Z -> dev -> dev) devs, (forall i d, ((d_on (f i d) = d_on d /\ d_pitch (f i d) = d_pitch d) /\ d_glide (f i d) = d_glide d) \/ d_on (f i d) = false /\ d_glide (f i d) = 0) ->
     (forall i, zget devs i = option_map (f i) (zget (md_dev s) i)) ->
     forall i d', zget devs i = Some d' -> exists d, dev_at s i d /\ fate op s d d').
  { intros Hr f devs Hf Hz i d' H. rewrite Hz in H. unfold dev_at. destruct (zget (md_dev s) i) as [d|]; [|discriminate].
    injection H as <-. exists d. split; [reflexivity|]. destruct (Hf i d) as [Hx|Hx]; [right; right; left; auto|left; tauto]. }
  destruct op as [c p v|c p|c k v|c p|c b|data| | |cb]; try contradiction; cbn [midi_step mop_ok] in *.
  - (* CC *)
    destruct Hop as (Hc & Hk & Hv). destruct (ok_ch_get _ _ Hs Hc) as (m & Hm & _).
    destruct (midi_cc_result _ _ _ _ m _ _ Hs Hc Hv Hm E) as (o' & R & _). clear E.
    destruct R as [m' Hf|Hk'|Hk'|Hk'|s1 Hk' E|Hk'|s1 o1 Hk' E|Hk' _|Hk' _|_|o1 Hk' _|_|devs o1 Hk' HH];
      unfold dev_at, ch_at in *; cbn [md_dev md_ch md_set_dev md_set_ch].
    + split; [exact KD|]. eapply zset_ch_fate; [exact Hm|]. unfold cc_field in Hf.
      destruct (k =? 5); [destruct (zget portaTimeToInterval v); [|discriminate]; injection Hf as <-; split; auto|].
      destruct (k =? 86); [destruct (md_nogm s); [discriminate|]; injection Hf as <-; split; auto|].
      destruct (Z.eqb_spec k 65) as [->|]; [injection Hf as <-; split; [auto|right; right; exists c, v; reflexivity]|].
      destruct (k =? 85); [destruct (md_nogm s); [discriminate|]; injection Hf as <-; split; auto|].
      destruct (k =? 101); [injection Hf as <-; split; auto|].
      destruct (k =? 100); [injection Hf as <-; split; auto|]. discriminate.
    + split; [intros i d'; apply KM, KA; intros d; unfold same_note; auto|].
      eapply zset_ch_fate; [exact Hm|]. split; auto.
    + split; [intros i d'; apply KM, KA; intros d; unfold same_note; auto|].
      eapply zset_ch_fate; [exact Hm|]. split; auto.
    + split; [|exact KC]. intros i d'. apply KM. intros d. unfold at_chan. destruct (_ =? _); [left; auto|].
      right; left; apply same_note_refl.
    + subst k. destruct (set_poly_eq _ _ _ _ Hs E) as (-> & _ & _ & _ & _ & _ & _ & Hz).
      split; [|exact KC]. apply (KR ltac:(left; exists c, v; reflexivity) (fun i d => d_set_midi d (if negb (RANGE v 2 =? 0) then if i <=? 5 then 0 else UNASSIGNED else i)));
        [auto|exact Hz].
    + split; assumption.
    + subst k. rewrite (resetAll_eq _ _ Hs Hc) in E. injection E as <- <-. cbn [md_dev md_ch]. split.
      * set (chs := zset (md_ch s) c (init_midi_channel c)).
        apply (KR ltac:(right; left; exists c, v; reflexivity)
          (fun i d => d_set_midi (init_dev chs (fun d => d_midi d =? c) i d) (if md_dyn s then UNASSIGNED else i))).
        -- intros i d. cbn [d_on d_glide d_set_midi]. unfold init_dev. destruct (d_midi d =? c); [right|left; auto].
           destruct (synced_note (chan_at chs i) (fresh_dev i d)) as (-> & _ & _ & ->). apply fresh_off.
        -- intros i. rewrite zget_assign, zget_mapi. destruct (zget (md_dev s) i); [|reflexivity].
           cbn [option_map]. rewrite !Z.add_0_l. reflexivity.
      * eapply zset_ch_fate; [exact Hm|apply init_fate].
    + split; assumption.
    + split; [exact KD|]. eapply zset_ch_fate; [exact Hm|]. unfold set_range. split; auto.
    + split; assumption.
    + split; assumption.
    + split; assumption.
    + split; [|exact KC]. destruct HH as [[-> _]|(-> & _)]; [exact KD|].
      intros i d'. rewrite dac_devs_get. destruct (zget (md_dev s) i) as [d|]; [|discriminate]. intros [= <-].
      exists d. split; [reflexivity|]. right; left. unfold dac_dev. destruct (i =? 5); unfold same_note; auto.
  - (* program *)
    destruct Hop as (Hc & _). destruct (ok_ch_get _ _ Hs Hc) as (m & Hm & _).
    rewrite (midi_program_eq _ _ _ m Hm) in E. injection E as <- <-. unfold dev_at, ch_at in *.
    cbn [md_dev md_ch md_set_dev md_set_ch]. split.
    + intros i d'. apply KM, KA. intros d; unfold same_note; auto.
    + eapply zset_ch_fate; [exact Hm|]. split; auto.
  - (* bend *)
    destruct Hop as (Hc & _). destruct (ok_ch_get _ _ Hs Hc) as (m & Hm & _).
    rewrite (midi_pitch_bend_eq _ _ _ m Hm) in E. injection E as <- <-. unfold dev_at, ch_at in *.
    cbn [md_dev md_ch md_set_dev md_set_ch]. split.
    + intros i d'. apply KM, KA. intros d. destruct (d_on d); [unfold same_note; auto|apply same_note_refl].
    + eapply zset_ch_fate; [exact Hm|]. split; auto.
  - (* sysex *)
    apply midi_sysex_result in E. destruct E as [|t s1 o1 Ed E|a b s1 Ed E|a Ed|a Ed|a Ed|a Ed|o1 _]; try (split; assumption).
    + destruct (gm_reset_eq s Hs) as (devs & o2 & o3 & E' & H1 & _). rewrite E' in E. injection E as <- <-.
      unfold dev_at, ch_at in *; cbn [md_dev md_ch]. split; [|apply init_chs_fate, Hs].
      intros i d' Hd'. destruct (H1 i d' Hd') as (d & d1 & G1 & G2 & ->). exists d. split; [exact G1|].
      left. destruct (after_init_off (gm_dyn s) i d1); auto.
    + destruct Hop as (H7 & _). rewrite Ed in H7. do 4 apply Forall_inv_tail in H7.
      assert (Ha := Forall_inv H7). assert (Hb := Forall_inv (Forall_inv_tail H7)). unfold seven in *.
      destruct (remap_eq a b s ltac:(apply Hs) ltac:(lia) ltac:(lia)) as [E'|(_ & i & d & a' & Hd & _ & E' & _)];
        rewrite E' in E; injection E as <-; [split; assumption|].
      unfold dev_at, ch_at in *; cbn [md_dev md_ch md_set_dev]. split; [|exact KC].
      intros j d' Hd'. destruct (Z.eq_dec j i) as [->|Hj].
      * rewrite zget_zset_same in Hd' by (eapply zget_Some; exact Hd). injection Hd' as <-. exists d. split; [exact Hd|].
        right; right; left. split; [repeat split; reflexivity|]. right; right; left. exists [a; b]. rewrite Ed. reflexivity.
      * rewrite zget_zset_other in Hd' by congruence. apply KD, Hd'.
    + set (b := negb (a =? 0)). unfold ch_at. destruct (set_dynamic_rest b s) as (-> & _).
      split; [|exact KC]. unfold dev_at. assert (Hr : remapping (MSysex data)) by (right; right; right; exists [a]; rewrite Ed; reflexivity).
      apply (KR Hr (fun i d => d_set_midi d (if b then UNASSIGNED else i))); [auto|apply set_dynamic_dev].
  - (* reset *)
    unfold reset in E. do 3 apply emit_inv in E as (? & E & ->). cbv zeta in E.
    rewrite reset_channels_eq in E by apply Hs. injection E as <- <-. unfold dev_at, ch_at; cbn [md_dev md_ch]. split.
    + intros i d' Hd'. apply reset_dev_get in Hd' as (Hi & d & Hd & ->); [|apply Hs]. exists d. split; [exact Hd|].
      left. match goal with |- context [dev_after_init ?b i d] => destruct (after_init_off b i d) end; auto.
    + apply init_chs_fate, Hs.
  - (* tick *)
    rewrite (midi_tick_eq _ Hs) in E. injection E as <- <-. unfold dev_at, ch_at; cbn [md_dev md_ch md_set_dev].
    split; [|exact KC]. intros i d'. apply KM. intros d. right; right; right. auto.
  - injection E as <- <-. split; assumption.
Qed.

(** ** Held keys *)
Definition held_inv (h : list (Z * Z)) (s : midi) : Prop :=
  (forall i d, dev_at s i d -> (d_on d = true -> In (d_midi d, d_pitch d) h) /\ d_glide d = 0) /\
  (forall c m, ch_at s c m -> (forall k, In k (keys (m_np m)) -> In (c, k) h) /\ m_porta m = false).

Lemma booted_dev i d : dev_at booted i d -> d_on d = false /\ d_glide d = 0 /\ d_midi d = i.
Proof.
  unfold dev_at. intros H. assert (Hi := zget_Some _ _ _ H). change (length (md_dev booted)) with 13%nat in Hi.
  assert (C : i = 0 \/ i = 1 \/ i = 2 \/ i = 3 \/ i = 4 \/ i = 5 \/ i = 6 \/ i = 7 \/ i = 8 \/ i = 9 \/ i = 10 \/ i = 11 \/ i = 12) by lia.
  repeat (destruct C as [-> | C]; [injection H as <-; auto|]). subst i. injection H as <-. auto.
Qed.
Lemma booted_ch c m : ch_at booted c m -> keys (m_np m) = [] /\ m_porta m = false.
Proof.
  unfold ch_at. intros H. change (md_ch booted) with init_chs in H.
  assert (Hc := zget_Some _ _ _ H). change (length init_chs) with 16%nat in Hc.
  assert (E := chan_at_init c ltac:(unfold is_chan; lia)). unfold chan_at in E. rewrite H in E. subst m.
  split; [apply init_keys|reflexivity].
Qed.
Lemma held_booted : held_inv [] booted.
Proof.
  split.
  - intros i d Hd. destruct (booted_dev _ _ Hd) as (H1 & H2 & _). split; [congruence|exact H2].
  - intros c m Hm. destruct (booted_ch _ _ Hm) as (-> & H2). split; [intros k []|exact H2].
Qed.
Lemma drop_in h c p x : In x (filter (fun k => negb ((fst k =? c) && (snd k =? p))) h) <-> In x h /\ x <> (c, p).
Proof.
  rewrite filter_In. destruct x as [a b]; cbn [fst snd].
  destruct (Z.eqb_spec a c) as [->|], (Z.eqb_spec b p) as [->|]; cbn; intuition congruence.
Qed.
Lemma held_off h s c p s' o :
  midi_ok s -> is_chan c -> held_inv h s -> midi_note_off c p s = WDone s' o ->
  held_inv (filter (fun k => negb ((fst k =? c) && (snd k =? p))) h) s'.
Proof.
  intros Hs Hc [HD HC] E. destruct (ok_ch_get _ _ Hs Hc) as (m & Hm & _).
  destruct (note_off_effect _ _ _ _ _ m Hs Hc Hm E) as (Ed & _ & st & Hst & Ek & ->).
  destruct (HC c m Hm) as [HK HP].
  assert (Hsub : forall k, In k (off_stack m p) -> In (c, k) h /\ (c, k) <> (c, p)).
  { intros k Hk. unfold off_stack in Hk. apply filter_In in Hk as [H1 H2]. split; [apply HK, H1|]. intros [= ->]. lia. }
  split.
  - intros i d' Hd'. unfold dev_at in Hd'. rewrite Ed in Hd'. apply dev_map in Hd' as (d & Hd & ->).
    destruct (HD i d Hd) as [H1 H2]. unfold note_off_dev.
    destruct (serves_note c p d) eqn:Es.
    + destruct (falls_back s m c p) eqn:Ef.
      * unfold retrig_dev. rewrite HP. split; [|exact H2]. intros _. cbn [d_midi d_pitch d_set_pitch d_set_cents d_set_on].
        apply drop_in. assert (Hx : off_next m p <> 0) by (unfold falls_back in Ef; lia).
        unfold serves_note in Es. apply andb_prop in Es as [Es _]. apply Z.eqb_eq in Es. rewrite Es.
        apply Hsub, off_next_key, Hx.
      * split; [intros X; discriminate X|exact H2].
    + split; [|exact H2]. intros Hon. apply drop_in. split; [apply H1, Hon|]. intros [= E1 E2].
      unfold serves_note in Es. rewrite playing_note in Es by (rewrite H2; lia). unfold note_of in Es.
      rewrite H2, E1, E2, Hon, !Z.eqb_refl in Es. discriminate.
  - intros b m' Hm'. unfold ch_at in Hm'. cbn [md_ch md_set_dev md_set_ch] in Hm'. destruct (Z.eq_dec b c) as [->|Hb].
    + rewrite zget_zset_same in Hm' by (eapply zget_Some; exact Hm). injection Hm' as <-. split; [|exact HP].
      intros k Hk. cbn [m_np m_set_np] in Hk. rewrite Ek in Hk. apply drop_in. apply Hsub.
      unfold note_off_keys in Hk. destruct (_ && _ && _) in Hk; [exact Hk|apply In_removelast, Hk].
    + rewrite zget_zset_other in Hm' by congruence. destruct (HC b m' Hm') as [G1 G2]. split; [|exact G2].
      intros k Hk. apply drop_in. split; [apply G1, Hk|]. intros [= ->]. contradiction.
Qed.
Lemma started_note m c p d : d_on (started m c p d) = true /\ d_midi (started m c p d) = c /\
  d_pitch (started m c p d) = p /\ d_glide (started m c p d) = d_glide d.
Proof. unfold started. destruct (synced_note m (prepared c p d)) as (-> & -> & -> & ->). auto. Qed.
Lemma held_on h s c p v s' o :
  midi_ok s -> is_chan c -> seven p -> v <> 0 -> held_inv h s -> midi_note_on c p v s = WDone s' o ->
  held_inv ((c, p) :: h) s'.
Proof.
  intros Hs Hc Hp Hv [HD HC] E. destruct (ok_ch_get _ _ Hs Hc) as (m & Hm & _). destruct (HC c m Hm) as [HK HP].
  destruct (midi_note_on_eq c p v s m Hs Hc Hp Hv Hm) as (s1 & o1 & E1 & R). rewrite E in E1. injection E1 as <- <-.
  assert (KD : forall i d, dev_at s i d -> (d_on d = true -> In (d_midi d, d_pitch d) ((c, p) :: h)) /\ d_glide d = 0).
  { intros i d Hd. destruct (HD i d Hd). split; [right; auto|assumption]. }
  assert (KC : forall b m', ch_at s b m' -> (forall k, In k (keys (m_np m')) -> In (b, k) ((c, p) :: h)) /\ m_porta m' = false).
  { intros b m' H. destruct (HC b m' H). split; [right; auto|assumption]. }
  assert (KS : forall i d mm, zget (md_dev s) i = Some d -> d_glide d = 0 ->
     forall j d', zget (zset (md_dev s) i (started mm c p d)) j = Some d' ->
     (d_on d' = true -> In (d_midi d', d_pitch d') ((c, p) :: h)) /\ d_glide d' = 0).
  { intros i d mm Hd Hg j d' H. destruct (Z.eq_dec j i) as [->|Hj].
    - rewrite zget_zset_same in H by (eapply zget_Some; exact Hd). injection H as <-.
      destruct (started_note mm c p d) as (-> & -> & -> & ->). split; [left; reflexivity|exact Hg].
    - rewrite zget_zset_other in H by congruence. apply (KD j d' H). }
  assert (KN : forall st, keys st = keys (m_np m) ++ [p] -> forall b m',
     zget (zset (md_ch s) c (m_set_vel (m_set_np m st) v)) b = Some m' ->
     (forall k, In k (keys (m_np m')) -> In (b, k) ((c, p) :: h)) /\ m_porta m' = false).
  { intros st Ek b m' H. destruct (Z.eq_dec b c) as [->|Hb].
    - rewrite zget_zset_same in H by (eapply zget_Some; exact Hm). injection H as <-. split; [|exact HP].
      cbn [m_np m_set_vel m_set_np]. rewrite Ek. intros k Hk. apply in_app_iff in Hk as [Hk|[<-|[]]];
        [right; apply HK, Hk|left; reflexivity].
    - rewrite zget_zset_other in H by congruence. apply (KC b m' H). }
  destruct R as [|i d st _ Ci Hd _ _ _ Hpo _|i d st _ Ci Hd _ _ Ek _|i d _ Ci Hd _].
  - split; assumption.
  - congruence.
  - split; [|exact (KN st Ek)]. intros j d' H. cbn [md_dev md_set_dev md_set_ch dev_at] in H. unfold dev_at in H.
    cbn [md_dev md_set_dev md_set_ch] in H.
    destruct (Z.eq_dec j i) as [->|Hj].
    + rewrite zget_zset_same in H by (eapply zget_Some; exact Hd). injection H as <-.
      destruct (started_note (m_set_vel (m_set_np m st) v) c p (d_set_glide d 0)) as (-> & -> & -> & ->).
      split; [left; reflexivity|reflexivity].
    + rewrite zget_zset_other in H by congruence. apply (KD j d' H).
  - split; [|exact KC]. intros j d' H. apply (KS i d m Hd (proj2 (HD i d Hd)) j d' H).
Qed.
Lemma tick_still s d : (forall m, ch_at s (d_midi d) m -> m_porta m = false) -> tick_dev (md_ch s) d = d.
Proof.
  intros H. unfold tick_dev. destruct (zget (md_ch s) (d_midi d)) as [m|] eqn:Em; [|reflexivity].
  rewrite (H m Em), andb_false_r. reflexivity.
Qed.
Lemma held_step op h s s' o :
  plain_op op -> mop_ok op -> midi_ok s -> held_inv h s -> steps s op s' o -> midi_ok s' -> held_inv (held_after h op) s'.
Proof.
  intros [Hp Hr] Hop Hs HI E _.
  destruct (match op with MNoteOn _ _ _ | MNoteOff _ _ => true | _ => false end) eqn:Eop.
  - destruct op; try discriminate; cbn [held_after]; unfold steps in E; cbn [midi_step mop_ok] in *.
    + destruct (Z.eqb_spec v 0) as [->|Hv].
      * apply (held_off h s c p s' o); tauto.
      * apply (held_on h s c p v s' o); tauto.
    + apply (held_off h s c p s' o); tauto.
  - assert (Hh : held_after h op = h) by (destruct op; discriminate || reflexivity). rewrite Hh.
    destruct (other_step op s s' o Hs Hop ltac:(destruct op; discriminate || exact I) E) as [FD FC].
    destruct HI as [HD HC]. split.
    + intros i d' Hd'. destruct (FD i d' Hd') as (d & Hd & F). destruct (HD i d Hd) as [H1 H2].
      destruct F as [[F1 F2]|[(F1 & F2 & F3 & F4)|[[_ F]|[-> F]]]].
      * split; [congruence|destruct F2; congruence].
      * rewrite F1, F2, F3, F4. auto.
      * contradiction.
      * rewrite F. rewrite (tick_still s d); [auto|]. intros m Em. apply (HC _ m Em).
    + intros c m' Hm'. destruct (FC c m' Hm') as (m & Hm & [F1 F2]). destruct (HC c m Hm) as [G1 G2]. split.
      * intros k Hk. destruct F1 as [F1|F1]; rewrite F1 in Hk; [apply G1, Hk|destruct Hk].
      * destruct F2 as [F2|[F2|F2]]; [congruence|exact F2|contradiction].
Qed.
Lemma held_boot ops s o : Forall plain_op ops -> boots_to ops s o -> midi_ok s /\ held_inv (held ops) s.
Proof.
  intros HP Hb. apply (boot_induction held_after [] plain_op held_inv) with (o := o); [exact held_booted| |exact HP|exact Hb].
  intros op h s0 s' o' H1 H2 H3 H4 H5 H6. apply (held_step op h s0 s' o'); assumption.
Qed.

(** Every sounding device channel plays a key that is held. *)
Lemma no_hung_notes ops s o : Forall plain_op ops -> boots_to ops s o ->
  forall i d, dev_at s i d -> d_on d = true -> In (d_midi d, note_of d) (held ops).
Proof.
  intros HP Hb i d Hd Hon. destruct (held_boot _ _ _ HP Hb) as [_ [HD _]]. destruct (HD i d Hd) as [H1 H2].
  unfold note_of. rewrite H2. apply H1, Hon.
Qed.

(** ** Glides only exist where portamento was switched on *)
Definition no_glide (s : midi) : Prop :=
  (forall i d, dev_at s i d -> d_glide d = 0) /\ (forall c m, ch_at s c m -> m_porta m = false).
Lemma no_glide_step op (h : unit) s s' o :
  ~ is_cc 65 op -> mop_ok op -> midi_ok s -> no_glide s -> steps s op s' o -> midi_ok s' -> no_glide s'.
Proof.
  intros Hp Hop Hs [HD HC] E _.
  assert (KZ : forall c m m', ch_at s c m -> m_porta m' = m_porta m ->
    forall b x, zget (zset (md_ch s) c m') b = Some x -> m_porta x = false).
  { intros c m m' Hm Hx b x H. destruct (Z.eq_dec b c) as [->|Hb].
    - rewrite zget_zset_same in H by (eapply zget_Some; exact Hm). injection H as <-. rewrite Hx. apply (HC c m Hm).
    - rewrite zget_zset_other in H by congruence. apply (HC b x H). }
  assert (KG : forall i d d', dev_at s i d -> d_glide d' = 0 ->
    forall j x, zget (zset (md_dev s) i d') j = Some x -> d_glide x = 0).
  { intros i d d' Hd Hx j x H. destruct (Z.eq_dec j i) as [->|Hj].
    - rewrite zget_zset_same in H by (eapply zget_Some; exact Hd). injection H as <-. exact Hx.
    - rewrite zget_zset_other in H by congruence. apply (HD j x H). }
  assert (Koff : forall c p, is_chan c -> midi_note_off c p s = WDone s' o -> no_glide s').
  { intros c p Hc E1. destruct (ok_ch_get _ _ Hs Hc) as (m & Hm & _).
    destruct (note_off_effect _ _ _ _ _ m Hs Hc Hm E1) as (Ed & _ & st & _ & _ & ->). split.
    - intros i d' Hd'. unfold dev_at in Hd'. rewrite Ed in Hd'. apply dev_map in Hd' as (d & Hd & ->).
      unfold note_off_dev. destruct (serves_note c p d); [|apply (HD i d Hd)].
      destruct (falls_back s m c p); [|apply (HD i d Hd)]. unfold retrig_dev. rewrite (HC c m Hm). apply (HD i d Hd).
    - intros b m'. unfold ch_at; cbn [md_ch md_set_dev md_set_ch]. apply (KZ c m); [exact Hm|reflexivity]. }
  assert (Kon : forall c p v, is_chan c -> seven p -> v <> 0 -> midi_note_on c p v s = WDone s' o -> no_glide s').
  { intros c p v Hc Hp7 Hv E1. destruct (ok_ch_get _ _ Hs Hc) as (m & Hm & _).
    destruct (midi_note_on_eq c p v s m Hs Hc Hp7 Hv Hm) as (s1 & o1 & E2 & R). rewrite E1 in E2. injection E2 as <- <-.
    destruct R as [|i d st _ Ci Hd _ _ _ Hpo _|i d st _ Ci Hd _ _ Ek _|i d _ Ci Hd _].
    - split; assumption.
    - rewrite (HC c m Hm) in Hpo. discriminate.
    - split; [intros j d'|intros b m']; unfold dev_at, ch_at; cbn [md_dev md_ch md_set_dev md_set_ch].
      + apply (KG i d); [exact Hd|]. destruct (started_note (m_set_vel (m_set_np m st) v) c p (d_set_glide d 0)) as (_ & _ & _ & ->). reflexivity.
      + apply (KZ c m); [exact Hm|reflexivity].
    - split; [intros j d'|exact HC]; unfold dev_at; cbn [md_dev md_set_dev].
      apply (KG i d); [exact Hd|]. destruct (started_note m c p d) as (_ & _ & _ & ->). apply (HD i d Hd). }
  destruct (match op with MNoteOn _ _ _ | MNoteOff _ _ => true | _ => false end) eqn:Eop.
  - destruct op; try discriminate; unfold steps in E; cbn [midi_step mop_ok] in *.
    + destruct (Z.eqb_spec v 0) as [->|Hv].
      * apply (Koff c p); tauto.
      * apply (Kon c p v); tauto.
    + apply (Koff c p); tauto.
  - destruct (other_step op s s' o Hs Hop ltac:(destruct op; discriminate || exact I) E) as [FD FC]. split.
    + intros i d' Hd'. destruct (FD i d' Hd') as (d & Hd & F). assert (H2 := HD i d Hd).
      destruct F as [[F1 F2]|[(F1 & F2 & F3 & F4)|[[[_ F] _]|[-> F]]]]; [destruct F2; congruence|congruence|congruence|].
      rewrite F. rewrite (tick_still s d); [auto|]. intros m Em. apply (HC _ m Em).
    + intros c m' Hm'. destruct (FC c m' Hm') as (m & Hm & [_ F2]). assert (G2 := HC c m Hm).
      destruct F2 as [F2|[F2|F2]]; [congruence|exact F2|contradiction].
Qed.
Lemma no_glide_boot ops s o : Forall (fun op => ~ is_cc 65 op) ops -> boots_to ops s o -> midi_ok s /\ no_glide s.
Proof.
  intros HP Hb. apply (boot_induction (fun (_ : unit) _ => tt) tt (fun op => ~ is_cc 65 op) (fun _ => no_glide)) with (ops := ops) (o := o); auto.
  - split; [intros i d Hd; apply (booted_dev _ _ Hd)|intros c m Hm; apply (booted_ch _ _ Hm)].
  - intros op h s0 s' o' H1 H2 H3 H4 H5 H6. apply (no_glide_step op h s0 s' o'); assumption.
Qed.

(** Without portamento a sounding device channel plays a MIDI key. *)
Definition on_keyboard (s : midi) : Prop := no_glide s /\ forall i d, dev_at s i d -> d_on d = true -> d_pitch d <= 127.
Lemma on_keyboard_step op (h : unit) s s' o :
  ~ is_cc 65 op -> mop_ok op -> midi_ok s -> on_keyboard s -> steps s op s' o -> midi_ok s' -> on_keyboard s'.
Proof.
  intros Hp Hop Hs [HG HD] E Hs'. split; [exact (no_glide_step op h s s' o Hp Hop Hs HG E Hs')|]. destruct HG as [HG HC].
  assert (KS : forall i d d', dev_at s i d -> d_pitch d' <= 127 -> forall j x, zget (zset (md_dev s) i d') j = Some x -> d_on x = true -> d_pitch x <= 127).
  { intros i d d' Hd Hx j x H. destruct (Z.eq_dec j i) as [->|Hj].
    - rewrite zget_zset_same in H by (eapply zget_Some; exact Hd). injection H as <-. intros _. exact Hx.
    - rewrite zget_zset_other in H by congruence. apply (HD j x H). }
  assert (Koff : forall c p, is_chan c -> midi_note_off c p s = WDone s' o -> forall i d, dev_at s' i d -> d_on d = true -> d_pitch d <= 127).
  { intros c p Hc E1. destruct (ok_ch_get _ _ Hs Hc) as (m & Hm & Hmo).
    destruct (note_off_effect _ _ _ _ _ m Hs Hc Hm E1) as (Ed & _ & st & _ & _ & ->).
    intros i d' Hd'. unfold dev_at in Hd'. rewrite Ed in Hd'. apply dev_map in Hd' as (d & Hd & ->).
    unfold note_off_dev. destruct (serves_note c p d); [|apply (HD i d Hd)].
    destruct (falls_back s m c p) eqn:Ef; [|intros X; discriminate X]. unfold retrig_dev. rewrite (HC c m Hm). intros _. cbn [d_pitch d_set_pitch].
    assert (Hx : off_next m p <> 0) by (unfold falls_back in Ef; lia). apply off_next_key in Hx. unfold off_stack in Hx. apply filter_In in Hx as [Hx _].
    destruct Hmo as (_ & _ & _ & _ & _ & _ & _ & _ & (_ & _ & Hk) & _). rewrite Forall_forall in Hk. assert (K := Hk _ Hx). unfold seven in K. lia. }
  assert (Kon : forall c p v, is_chan c -> seven p -> v <> 0 -> midi_note_on c p v s = WDone s' o -> forall i d, dev_at s' i d -> d_on d = true -> d_pitch d <= 127).
  { intros c p v Hc Hp7 Hv E1. destruct (ok_ch_get _ _ Hs Hc) as (m & Hm & _). unfold seven in Hp7.
    destruct (midi_note_on_eq c p v s m Hs Hc Hp7 Hv Hm) as (s1 & o1 & E2 & R). rewrite E1 in E2. injection E2 as <- <-.
    destruct R as [|i d st _ Ci Hd _ _ _ Hpo _|i d st _ Ci Hd _ _ Ek _|i d _ Ci Hd _].
    - exact HD.
    - rewrite (HC c m Hm) in Hpo. discriminate.
    - intros j d'. unfold dev_at; cbn [md_dev md_set_dev md_set_ch]. apply (KS i d); [exact Hd|].
      destruct (started_note (m_set_vel (m_set_np m st) v) c p (d_set_glide d 0)) as (_ & _ & -> & _). lia.
    - intros j d'. unfold dev_at; cbn [md_dev md_set_dev]. apply (KS i d); [exact Hd|].
      destruct (started_note m c p d) as (_ & _ & -> & _). lia. }
  destruct (match op with MNoteOn _ _ _ | MNoteOff _ _ => true | _ => false end) eqn:Eop.
  - destruct op; try discriminate; unfold steps in E; cbn [midi_step mop_ok] in *.
    + destruct (Z.eqb_spec v 0) as [->|Hv].
      * apply (Koff c p); tauto.
      * apply (Kon c p v); tauto.
    + apply (Koff c p); tauto.
  - destruct (other_step op s s' o Hs Hop ltac:(destruct op; discriminate || exact I) E) as [FD _].
    intros i d' Hd' Hon. destruct (FD i d' Hd') as (d & Hd & F). assert (H2 := HD i d Hd).
    destruct F as [[F1 F2]|[(F1 & F2 & F3 & F4)|[[[[F1 F2] F] _]|[-> F]]]]; [congruence|rewrite F3; apply H2; congruence|rewrite F2; apply H2; congruence|].
    rewrite F in *. rewrite (tick_still s d) in *; [auto|intros m Em; apply (HC _ m Em)..].
Qed.
Lemma on_keyboard_boot ops s o : Forall (fun op => ~ is_cc 65 op) ops -> boots_to ops s o -> midi_ok s /\ on_keyboard s.
Proof.
  intros HP Hb. apply (boot_induction (fun (_ : unit) _ => tt) tt (fun op => ~ is_cc 65 op) (fun _ => on_keyboard)) with (ops := ops) (o := o); auto.
  - split; [split; [intros i d Hd; apply (booted_dev _ _ Hd)|intros c m Hm; apply (booted_ch _ _ Hm)]|].
    intros i d Hd On. destruct (booted_dev _ _ Hd) as [X _]. congruence.
  - intros op h s0 s' o' H1 H2 H3 H4 H5 H6. apply (on_keyboard_step op h s0 s' o'); assumption.
Qed.
Lemma note_off_history ops s o c p s' o' :
  Forall (fun op => ~ is_cc 65 op) ops -> boots_to ops s o -> is_chan c -> steps s (MNoteOff c p) s' o' -> ~ sounds s' c p.
Proof.
  intros HP Hb Hc E. destruct (no_glide_boot _ _ _ HP Hb) as [Hs [HD _]].
  apply (note_off_silences c p s s' o'); [assumption..|]. intros m _ _ i d [Hd _] _. apply (HD i d Hd).
Qed.
