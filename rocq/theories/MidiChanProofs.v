(** Independence of MIDI channels; channel settings. *)
From Verif Require Import Base BaseLemmas PitchModel PitchProofs NotePriorityModel NotePriorityProofs SynthModel.
From Verif Require SynthSpec MidiDevProofs.
From Verif Require Import MidiModel MidiSpec MidiProofs MidiOkProofs MidiEqProofs MidiEffectProofs MidiNoteProofs MidiHistProofs MidiMapProofs MidiStaticProofs.

(** ** Other channels' settings *)
Lemma other_settings op s s' o a :
  midi_ok s -> mop_ok op -> on_channel op = Some a -> steps s op s' o ->
  forall b m, ch_at s b m -> b <> a -> ch_at s' b m.
Proof.
  intros Hs Hop Ha E b m0 Hm0 Hb. unfold steps in E. unfold ch_at in *.
  assert (KC : forall m', zget (zset (md_ch s) a m') b = Some m0) by (intros m'; rewrite zget_zset_other by congruence; exact Hm0).
  assert (Koff : forall p, is_chan a -> midi_note_off a p s = WDone s' o -> zget (md_ch s') b = Some m0).
  { intros p Hc E1. destruct (ok_ch_get _ _ Hs Hc) as (m & Hm & _).
    destruct (note_off_effect _ _ _ _ _ m Hs Hc Hm E1) as (_ & _ & st & _ & _ & ->). apply KC. }
  destruct op as [c p v|c p|c k v|c p|c bd|data| | |cb]; try discriminate; injection Ha as ->; cbn [midi_step mop_ok] in *.
  - destruct Hop as (Hc & Hp & _). destruct (Z.eqb_spec v 0) as [->|Hv]; [apply (Koff p); auto|].
    destruct (ok_ch_get _ _ Hs Hc) as (m & Hm & _).
    destruct (midi_note_on_eq a p v s m Hs Hc Hp Hv Hm) as (s1 & o1 & E2 & R). rewrite E in E2. injection E2 as <- <-.
    destruct R; [exact Hm0|apply KC|apply KC|exact Hm0].
  - destruct Hop. apply (Koff p); assumption.
  - destruct Hop as (Hc & Hk & Hv). destruct (ok_ch_get _ _ Hs Hc) as (m & Hm & _).
    destruct (midi_cc_result _ _ _ _ m _ _ Hs Hc Hv Hm E) as (o' & R & _). clear E.
    destruct R as [m' Hf|Hk'|Hk'|Hk'|s1 Hk' E|Hk'|s1 o1 Hk' E|Hk' _|Hk' _|_|o1 Hk' _|_|devs o1 Hk' HH];
      try exact Hm0; try apply KC.
    + destruct (set_poly_eq _ _ _ _ Hs E) as (-> & _). exact Hm0.
    + rewrite (resetAll_eq _ _ Hs Hc) in E. injection E as <- _. apply KC.
  - destruct Hop as (Hc & _). destruct (ok_ch_get _ _ Hs Hc) as (m & Hm & _).
    rewrite (midi_program_eq _ _ _ m Hm) in E. injection E as <- <-. apply KC.
  - destruct Hop as (Hc & _). destruct (ok_ch_get _ _ Hs Hc) as (m & Hm & _).
    rewrite (midi_pitch_bend_eq _ _ _ m Hm) in E. injection E as <- <-. apply KC.
Qed.

(** ** Other channels' devices *)
Lemma reaches_voice s op a x i d : call_voice x = Some (d_ops d, d_num d) -> dev_at s i d -> open_to s op a i d ->
  reaches s op a x.
Proof.
  intros Hx Hd Hc. split; [intros w Hw; rewrite Hx in Hw; injection Hw as <-; eauto|].
  split; intros ? ? ->; discriminate.
Qed.
Lemma reaches_quiet s op a x : call_voice x = None -> (forall op, x <> DSynth op) -> (forall n p, x <> DStoreFrom n p) -> reaches s op a x.
Proof. intros H1 H2 H3. split; [congruence|]. split; intros ? ? ->; [exfalso; eapply H2|exfalso; eapply H3]; reflexivity. Qed.
Lemma calls_at_reaches s op c h :
  (forall d x, In x (h d) -> call_voice x = Some (d_ops d, d_num d)) ->
  Forall (reaches s op c) (flat_map (calls_at c h) (md_dev s)).
Proof.
  intros Hh. apply Forall_forall. intros x Hx. apply in_flat_map in Hx as (d & Hd & Hx).
  unfold calls_at in Hx. destruct (Z.eqb_spec (d_midi d) c) as [Hc|]; [|destruct Hx].
  destruct (In_zget _ _ Hd) as [i Hi]. apply (reaches_voice s op c x i d); auto. left. exact Hc.
Qed.
Lemma sync_in m d x : In x (sync_calls m d) -> call_voice x = Some (d_ops d, d_num d) \/ x = DPerc (d_num d) (d_midi d =? 9).
Proof.
  unfold sync_calls. intros H. repeat (apply in_app_iff in H as [H|H]);
    [destruct H as [<-|[]]; auto|..]; revert H; match goal with |- context [if ?b then _ else _] => destruct b end;
    try (intros []; fail); intros [<-|[]]; left; reflexivity.
Qed.
Lemma start_reaches s op i d e m c p v :
  dev_at s i d -> open_to s op c i d -> d_ops e = d_ops d -> d_num e = d_num d ->
  Forall (reaches s op c) (start_calls m c p v e).
Proof.
  intros Hd Hc H1 H2. apply Forall_forall. intros x Hx. unfold start_calls in Hx.
  apply in_app_iff in Hx as [Hx|Hx]; [|apply in_app_iff in Hx as [Hx|Hx]].
  - destruct (_ && _); [|destruct Hx]. destruct Hx as [<-|[]]. apply (reaches_voice s op c _ i d); auto. cbn. rewrite H1, H2. reflexivity.
  - apply sync_in in Hx as [Hx|Hx].
    + apply (reaches_voice s op c _ i d); auto. rewrite Hx. cbn. rewrite H1, H2. reflexivity.
    + rewrite Hx. apply reaches_quiet; [reflexivity|intros; discriminate..].
  - destruct Hx as [<-|[]]. apply (reaches_voice s op c _ i d); auto. cbn. rewrite H1, H2. reflexivity.
Qed.
Lemma fm_parameter_chan s num k v op : fm_parameter s num k v = Some op ->
  SynthSpec.sop_chan op = Some num \/ SynthSpec.sop_chan op = None.
Proof.
  unfold fm_parameter. cbv zeta.
  repeat match goal with |- (if ?b then _ else _) = _ -> _ => destruct b; [intros [= <-]; cbn; auto|] end. discriminate.
Qed.


Lemma other_devices op s s' o a :
  midi_ok s -> mop_ok op -> on_channel op = Some a -> ~ reassigning op -> steps s op s' o ->
  (forall i d, dev_at s i d -> d_midi d <> a -> d_on d = true \/ ~ is_note_on op -> dev_at s' i d) /\
  Forall (reaches s op a) o.
Proof.
  intros Hs Hop Ha Hn E. unfold steps in E.
  assert (KM : forall (f : dev -> dev) (P : dev -> Prop), (forall e, d_midi e <> a -> f e = e) ->
     forall i d, dev_at s i d -> d_midi d <> a -> P d -> zget (map f (md_dev s)) i = Some d).
  { intros f P Hf i d Hd Hi _. rewrite zget_map, Hd. cbn [option_map]. f_equal. apply Hf, Hi. }
  assert (KA : forall g e, d_midi e <> a -> at_chan a g e = e).
  { intros g e He. unfold at_chan. replace (d_midi e =? a) with false by lia. reflexivity. }
  assert (Koff : forall p (P : dev -> Prop), is_chan a -> midi_note_off a p s = WDone s' o ->
    (forall i d, dev_at s i d -> d_midi d <> a -> P d -> dev_at s' i d) /\ Forall (reaches s op a) o).
  { intros p P Hc E1. destruct (ok_ch_get _ _ Hs Hc) as (m & Hm & _).
    destruct (note_off_effect _ _ _ _ _ m Hs Hc Hm E1) as (_ & -> & st & _ & _ & ->). split.
    - apply (KM _ P). intros e He. unfold note_off_dev, serves_note. replace (d_midi e =? a) with false by lia. reflexivity.
    - apply Forall_forall. intros x Hx. apply in_flat_map in Hx as (d & Hd & Hx). destruct (In_zget _ _ Hd) as [i Hi].
      assert (Hx' : call_voice x = Some (d_ops d, d_num d) /\ d_midi d = a).
      { unfold note_off_calls, retrig_calls, off_calls in Hx.
        assert (Hsv : serves_note a p d = true -> d_midi d = a).
        { unfold serves_note. intros H. apply andb_prop in H as [H _]. lia. }
        destruct (falls_back s m a p), (serves_note a p d); try (destruct Hx); try (destruct (m_porta m) in Hx; destruct Hx);
          subst; try contradiction; split; auto; try reflexivity. }
      destruct Hx' as [Hx1 Hx2]. apply (reaches_voice s op a x i d); auto. left. exact Hx2. }
  destruct op as [c p v|c p|c k v|c p|c bd|data| | |cb]; try discriminate; injection Ha as ->; cbn [midi_step mop_ok] in *.
  - destruct Hop as (Hc & Hp & _).
    destruct (Z.eqb_spec v 0) as [->|Hv]; [apply (Koff p (fun d => d_on d = true \/ ~ is_note_on (MNoteOn a p 0))); auto|].
    destruct (ok_ch_get _ _ Hs Hc) as (m & Hm & _).
    destruct (midi_note_on_eq a p v s m Hs Hc Hp Hv Hm) as (s1 & o1 & E2 & R). rewrite E in E2. injection E2 as <- <-.
    assert (KD : forall i d d', dev_at s i d -> chosen s m a = Some i -> forall j e, dev_at s j e -> d_midi e <> a ->
       d_on e = true \/ ~ is_note_on (MNoteOn a p v) -> zget (zset (md_dev s) i d') j = Some e).
    { intros i d d' Hd Ci j e He Hea [Hon|Hno]; [|exfalso; apply Hno; exists a, p, v; reflexivity].
      rewrite zget_zset_other; [exact He|]. intros ->. unfold dev_at in *. rewrite Hd in He. injection He as ->.
      destruct (chosen_cases _ _ _ _ _ Ci Hd) as ([H|H] & _); congruence. }
    destruct R as [|i d st Ht Ci Hd _ _ _ Hpo _|i d st Ht Ci Hd _ _ Ek _|i d Ht Ci Hd _];
      [split; [auto|constructor]| | |]; destruct (chosen_cases _ _ _ _ _ Ci Hd) as (Hx & Hx1 & _);
      assert (Hx2 : open_to s (MNoteOn a p v) a i d) by
        (unfold open_to; destruct (Z.eq_dec (d_midi d) a) as [|Hne]; [left; assumption|right];
         split; [exists a, p, v; reflexivity|]; split; [destruct (md_dyn s); [reflexivity|contradiction (Hne (Hx1 eq_refl))]|];
         split; [destruct Hx as [Hx|Hx]; [contradiction|exact Hx]|];
         destruct (Z_lt_le_dec i 10) as [|Hi10]; [assumption|contradiction (Hne (MidiDevProofs.chosen_high _ _ _ _ _ Ci Hd Hi10))]);
      (split; [apply (KD i d); assumption|]).
    + constructor.
    + apply (start_reaches s _ i d); auto.
    + apply (start_reaches s _ i d); auto.
  - destruct Hop. apply (Koff p (fun d => d_on d = true \/ ~ is_note_on (MNoteOff a p))); assumption.
  - destruct Hop as (Hc & Hk & Hv). destruct (ok_ch_get _ _ Hs Hc) as (m & Hm & _).
    destruct (midi_cc_result _ _ _ _ m _ _ Hs Hc Hv Hm E) as (o' & R & ->). clear E.
    assert (K1 : k <> 84) by (intros ->; apply Hn; left; exists a, v; reflexivity).
    assert (K2 : k <> 121) by (intros ->; apply Hn; right; left; exists a, v; reflexivity).
    assert (K3 : k <> 78) by (intros ->; apply Hn; right; right; exists a, v; reflexivity).
    enough (G : (forall i d, dev_at s i d -> d_midi d <> a -> d_on d = true \/ ~ is_note_on (MCc a k v) -> dev_at s' i d) /\
              Forall (reaches s (MCc a k v) a) o').
    { destruct G as [G1 G2]. split; [exact G1|]. apply Forall_app. split; [exact G2|].
      destruct (md_cb s'); [|constructor]. apply Forall_cons; [|constructor]. apply reaches_quiet; [reflexivity|intros; discriminate..]. }
    destruct R as [m' Hf|Hk'|Hk'|Hk'|s1 Hk' E|Hk'|s1 o1 Hk' E|Hk' _|Hk' _|_|o1 Hk' Ho|_|devs o1 Hk' HH];
      try contradiction; (split; [try (intros i d Hd Hm' _; exact Hd); try (apply (KM _ (fun d => d_on d = true \/ ~ is_note_on (MCc a k v))); intros e; apply KA)|]).
    + constructor.
    + apply calls_at_reaches. intros d x. destruct (_ =? _); [intros []|intros [<-|[]]; reflexivity].
    + apply calls_at_reaches. intros d x. destruct (_ =? _); [intros []|intros [<-|[]]; reflexivity].
    + apply calls_at_reaches. intros d x [<-|[]]; reflexivity.
    + apply Forall_cons; [|constructor]. split; [discriminate|]. split; [intros op n [= <-]; discriminate|discriminate].
    + apply Forall_cons; [|constructor]. apply reaches_quiet; [reflexivity|intros; discriminate..].
    + apply calls_at_reaches. intros d x. destruct (d_bend d =? BEND_CENTRE); [intros []|intros [<-|[]]; reflexivity].
    + constructor.
    + destruct Ho as [-> | (i & d & Hd & Hf & ->)]; [constructor|]. apply Forall_cons; [|constructor].
      split; [discriminate|]. split; [intros; discriminate|]. intros n q [= <- <-]. eauto.
    + apply Forall_forall. intros x Hx. apply in_flat_map in Hx as (d & Hd & Hx).
      unfold calls_at in Hx. destruct (Z.eqb_spec (d_midi d) a) as [Hda|]; [|destruct Hx].
      destruct (In_zget _ _ Hd) as [i Hi]. unfold fm_call in Hx. destruct (md_nogm s); [destruct Hx|].
      destruct (fm_parameter s (d_num d) k v) as [op|] eqn:Ep; [|destruct Hx]. destruct Hx as [<-|[]].
      split; [discriminate|]. split; [|intros; discriminate]. intros op' n [= <-] Hop'.
      exists i, d. split; [split; assumption|]. destruct (fm_parameter_chan _ _ _ _ _ Ep); congruence.
  - destruct Hop as (Hc & _). destruct (ok_ch_get _ _ Hs Hc) as (m & Hm & _).
    rewrite (midi_program_eq _ _ _ m Hm) in E. injection E as <- <-. split; [apply (KM _ (fun d => d_on d = true \/ ~ is_note_on (MProgram a p))); intros e; apply KA|].
    apply Forall_app. split; [apply calls_at_reaches|].
    + intros d x. destruct (_ =? _); [intros []|intros [<-|[]]; reflexivity].
    + destruct (md_cb s); [|constructor]. apply Forall_cons; [|constructor]. apply reaches_quiet; [reflexivity|intros; discriminate..].
  - destruct Hop as (Hc & _). destruct (ok_ch_get _ _ Hs Hc) as (m & Hm & _).
    rewrite (midi_pitch_bend_eq _ _ _ m Hm) in E. injection E as <- <-. split; [apply (KM _ (fun d => d_on d = true \/ ~ is_note_on (MBend a bd))); intros e; apply KA|].
    apply calls_at_reaches. intros d x. destruct (d_on d); [destruct (_ =? _)|]; intros Hx; try (destruct Hx as [<-|[]]); try destruct Hx; reflexivity.
Qed.

(** Reset All Controllers with the identity mapping leaves other device channels alone. *)
Lemma reset_controllers_static s s' o a v :
  midi_ok s -> is_chan a -> seven v -> static_map s -> steps s (MCc a 121 v) s' o ->
  (forall b m, ch_at s b m -> b <> a -> ch_at s' b m) /\ (forall i d, dev_at s i d -> i <> a -> dev_at s' i d) /\
  ch_at s' a (init_midi_channel a).
Proof.
  intros Hs Hc Hv Hst E. split.
  { apply (other_settings (MCc a 121 v) s s' o a Hs); [cbn; unfold seven in *; repeat split; try apply Hc; lia|reflexivity|exact E]. }
  unfold steps in E; cbn [midi_step] in E. destruct (ok_ch_get _ _ Hs Hc) as (m & Hm & _).
  destruct (midi_cc_result _ _ _ _ m _ _ Hs Hc Hv Hm E) as (o' & R & _). clear E.
  inversion R; subst; try lia; try discriminate.
  - match goal with H : resetAllControllers _ _ = _ |- _ => rewrite (resetAll_eq _ _ Hs Hc) in H; injection H as <- _ end.
    destruct Hst as [H1 H2]. unfold dev_at, ch_at; cbn [md_dev md_ch]. split.
    + intros i d Hd Hi. rewrite zget_assign, zget_mapi, Hd, H1. rewrite !Z.add_0_l. unfold init_dev.
      rewrite (H2 i d Hd). replace (i =? a) with false by lia. f_equal. rewrite <- (H2 i d Hd). destruct d; reflexivity.
    + rewrite zget_zset_same; [reflexivity|eapply zget_Some; exact Hm].
  - match goal with H : ~ In _ _ |- _ => exfalso; apply H; cbn; tauto end.
Qed.

(** ** Settings *)
Definition rpn_of (t : setting) : Z :=
  match st_msb t with Some v => v | None => 254 end * 128 + match st_lsb t with Some v => v | None => 127 end.
Definition byte7 (x : option Z) : Prop := match x with Some v => seven v | None => True end.
Definition agrees (t : setting) (m : mchan) : Prop :=
  m_vol m = st_vol t /\ m_pan m = st_pan t /\ m_prog m = st_prog t /\ m_bend m = st_bend t /\
  pc_pitch (m_range m) = st_semis t /\ pc_cents (m_range m) = st_cents t /\ m_rpn m = rpn_of t /\
  byte7 (st_msb t) /\ byte7 (st_lsb t).
Definition settings_inv (f : Z -> setting) (s : midi) : Prop := forall c m, ch_at s c m -> agrees (f c) m.

Lemma agrees_default c : agrees default_setting (init_midi_channel c).
Proof. unfold agrees, rpn_of. cbn. repeat split; auto. Qed.
Lemma default_inv s : md_ch s = init_chs -> settings_inv (fun _ => default_setting) s.
Proof.
  intros H c m Hm. unfold ch_at in Hm. rewrite H in Hm. assert (Hc := zget_Some _ _ _ Hm). change (length init_chs) with 16%nat in Hc.
  assert (E := chan_at_init c ltac:(unfold is_chan; lia)). unfold chan_at in E. rewrite Hm in E. subst m. apply agrees_default.
Qed.
Lemma zset_settings f s s' c m m' t : settings_inv f s -> ch_at s c m -> md_ch s' = zset (md_ch s) c m' -> agrees t m' ->
  settings_inv (at_channel f c t) s'.
Proof.
  intros HI Hm Hs' Ha b x Hx. unfold ch_at in Hx. rewrite Hs' in Hx. unfold at_channel. destruct (Z.eqb_spec b c) as [->|Hb].
  - rewrite zget_zset_same in Hx by (eapply zget_Some; exact Hm). injection Hx as <-. exact Ha.
  - rewrite zget_zset_other in Hx by congruence. apply HI, Hx.
Qed.
Lemma same_settings f s s' c m : settings_inv f s -> ch_at s c m -> md_ch s' = md_ch s -> settings_inv (at_channel f c (f c)) s'.
Proof.
  intros HI Hm Hs' b x Hx. unfold ch_at in Hx. rewrite Hs' in Hx. unfold at_channel.
  destruct (Z.eqb_spec b c) as [->|]; apply HI, Hx.
Qed.

Lemma lor7 v l : seven v -> seven l -> Z.lor (Z.shiftl v 7) l = v * 128 + l.
Proof.
  intros Hv Hl. unfold seven in *. rewrite Z.shiftl_mul_pow2 by lia. change (2 ^ 7) with 128.
  assert (H : Z.land (v * 128) l = 0).
  { apply Z.bits_inj'. intros n Hn. rewrite Z.land_spec, Z.bits_0. change 128 with (2 ^ 7).
    destruct (Z_lt_le_dec n 7).
    - rewrite Z.mul_pow2_bits_low by lia. reflexivity.
    - assert (Z.testbit l n = false); [|rewrite H; apply andb_false_r].
      destruct (Z.eq_dec l 0) as [->|]; [apply Z.bits_0|]. apply Z.bits_above_log2; [lia|].
      assert (Z.log2 l < 7); [|lia]. apply Z.log2_lt_pow2; lia. }
  rewrite <- Z.lxor_lor by exact H. symmetry. apply Z.add_nocarry_lxor, H.
Qed.
Lemma update_msb m t v : agrees t m -> seven v ->
  m_rpn (update_rpn v true m) = v * 128 + match st_lsb t with Some l => l | None => 127 end.
Proof.
  intros (_ & _ & _ & _ & _ & _ & Hr & _ & Hl) Hv. unfold update_rpn. cbn [m_rpn m_set_rpn]. rewrite Hr. unfold rpn_of.
  set (l := match st_lsb t with Some l => l | None => 127 end).
  assert (H7 : seven l) by (unfold l; destruct (st_lsb t); [exact Hl|unfold seven; lia]).
  set (hi := match st_msb t with Some v => v | None => 254 end).
  change 0x7F with (Z.ones 7). rewrite Z.land_ones by lia. change (2 ^ 7) with 128.
  replace ((hi * 128 + l) mod 128) with l by (unfold seven in H7; rewrite Z.add_comm, Z.mod_add by lia; symmetry; apply Z.mod_small; lia).
  rewrite lor7 by assumption. unfold u16. apply Z.mod_small. unfold seven in *. lia.
Qed.
Lemma land_hi x : 0 <= x < 65536 -> Z.land x 0xFF80 = x / 128 * 128.
Proof.
  intros Hx. apply Z.bits_inj'. intros n Hn. rewrite Z.land_spec. change 128 with (2 ^ 7).
  destruct (Z_lt_le_dec n 7).
  - rewrite Z.mul_pow2_bits_low by lia.
    assert (H : n = 0 \/ n = 1 \/ n = 2 \/ n = 3 \/ n = 4 \/ n = 5 \/ n = 6) by lia.
    repeat (destruct H as [-> | H]; [apply andb_false_r|]). subst n. apply andb_false_r.
  - rewrite Z.mul_pow2_bits by lia. rewrite Z.div_pow2_bits by lia. replace (n - 7 + 7) with n by lia.
    destruct (Z_lt_le_dec n 16).
    + assert (H : n = 7 \/ n = 8 \/ n = 9 \/ n = 10 \/ n = 11 \/ n = 12 \/ n = 13 \/ n = 14 \/ n = 15) by lia.
      repeat (destruct H as [-> | H]; [apply andb_true_r|]). subst n. apply andb_true_r.
    + assert (Hb : Z.testbit x n = false); [|rewrite Hb; reflexivity].
      destruct (Z.eq_dec x 0) as [->|]; [apply Z.bits_0|]. apply Z.bits_above_log2; [lia|].
      assert (Z.log2 x < 16); [|lia]. apply Z.log2_lt_pow2; lia.
Qed.
Lemma update_lsb m t v : agrees t m -> seven v ->
  m_rpn (update_rpn v false m) = match st_msb t with Some h => h | None => 254 end * 128 + v.
Proof.
  intros (_ & _ & _ & _ & _ & _ & Hr & Hh & Hl) Hv. unfold update_rpn. cbn [m_rpn m_set_rpn]. rewrite Hr. unfold rpn_of.
  set (l := match st_lsb t with Some l => l | None => 127 end).
  assert (H7 : seven l) by (unfold l; destruct (st_lsb t); [exact Hl|unfold seven; lia]).
  set (hi := match st_msb t with Some v => v | None => 254 end).
  assert (Hhi : 0 <= hi < 255) by (unfold hi; destruct (st_msb t); [unfold byte7, seven in Hh; lia|lia]).
  unfold seven in *. rewrite land_hi by lia. change 0x7F with (Z.ones 7). rewrite Z.land_ones by lia. change (2 ^ 7) with 128.
  rewrite (Z.mod_small v) by lia.
  replace ((hi * 128 + l) / 128) with hi by (symmetry; rewrite Z.div_add_l by lia; rewrite (Z.div_small l 128) by lia; lia).
  assert (E : Z.lor (hi * 128) v = hi * 128 + v).
  { replace (hi * 128) with (Z.shiftl hi 7) by (rewrite Z.shiftl_mul_pow2 by lia; reflexivity).
    assert (H : Z.land (Z.shiftl hi 7) v = 0).
    { rewrite Z.shiftl_mul_pow2 by lia. apply Z.bits_inj'. intros n Hn. rewrite Z.land_spec, Z.bits_0.
      destruct (Z_lt_le_dec n 7).
      - rewrite Z.mul_pow2_bits_low by lia. reflexivity.
      - assert (Hb : Z.testbit v n = false); [|rewrite Hb; apply andb_false_r].
        destruct (Z.eq_dec v 0) as [->|]; [apply Z.bits_0|]. apply Z.bits_above_log2; [lia|].
        assert (Z.log2 v < 7); [|lia]. apply Z.log2_lt_pow2; lia. }
    rewrite <- Z.lxor_lor by exact H. symmetry. apply Z.add_nocarry_lxor, H. }
  rewrite E. unfold u16. apply Z.mod_small. lia.
Qed.
Lemma rpn_zero t : byte7 (st_msb t) -> byte7 (st_lsb t) -> (rpn_of t =? 0) = range_selected t.
Proof.
  unfold rpn_of, range_selected. destruct (st_msb t) as [h|], (st_lsb t) as [l|]; unfold byte7, seven; intros H1 H2;
    try (destruct h; apply Z.eqb_neq; lia); try (apply Z.eqb_neq; lia).
  destruct h; [destruct l|..]; try reflexivity; try (apply Z.eqb_neq; lia).
Qed.
Lemma s8_seven v : seven v -> s8 v = v.
Proof. unfold seven, s8. intros H. rewrite Z.mod_small by lia. lia. Qed.

Lemma has_gm data : has_prefix [0x7E; 0x7F; 0x09; 0x01] data = is_gm_reset data.
Proof.
  destruct data as [|a [|b [|c [|d t]]]]; cbn [has_prefix is_gm_reset]; rewrite ?andb_false_r, ?andb_true_r, ?andb_assoc; try reflexivity.
Qed.
Lemma gm_sysex data s : is_gm_reset data = true -> midi_sysex data s = general_midi_reset s.
Proof.
  intros H. unfold midi_sysex. rewrite has_gm, H.
  destruct data as [|a [|b [|c [|d t]]]]; try discriminate. cbn [length]. destruct (Z.ltb_spec (Z.of_nat (S (S (S (S (length t)))))) 4); [lia|reflexivity].
Qed.

Lemma settings_step op f s s' o :
  True -> mop_ok op -> midi_ok s -> settings_inv f s -> steps s op s' o -> midi_ok s' -> settings_inv (settings_after f op) s'.
Proof.
  intros _ Hop Hs HI E _. unfold steps in E.
  assert (Koff : forall c p, is_chan c -> midi_note_off c p s = WDone s' o -> settings_inv f s').
  { intros c p Hc E1. destruct (ok_ch_get _ _ Hs Hc) as (m & Hm & _).
    destruct (note_off_effect _ _ _ _ _ m Hs Hc Hm E1) as (_ & _ & st & _ & _ & ->).
    intros b x Hx. unfold ch_at in Hx. cbn [md_ch md_set_dev md_set_ch] in Hx. destruct (Z.eq_dec b c) as [->|Hb].
    - rewrite zget_zset_same in Hx by (eapply zget_Some; exact Hm). injection Hx as <-. apply (HI c m Hm).
    - rewrite zget_zset_other in Hx by congruence. apply HI, Hx. }
  destruct op as [c p v|c p|c k v|c p|c b|data| | |cb]; cbn [midi_step mop_ok settings_after] in *.
  - destruct Hop as (Hc & Hp & _). destruct (Z.eqb_spec v 0) as [->|Hv]; [apply (Koff c p); auto|].
    destruct (ok_ch_get _ _ Hs Hc) as (m & Hm & _).
    destruct (midi_note_on_eq c p v s m Hs Hc Hp Hv Hm) as (s1 & o1 & E2 & R). rewrite E in E2. injection E2 as <- <-.
    assert (KN : forall st b x, zget (zset (md_ch s) c (m_set_vel (m_set_np m st) v)) b = Some x -> agrees (f b) x).
    { intros st b x Hx. destruct (Z.eq_dec b c) as [->|Hb].
      - rewrite zget_zset_same in Hx by (eapply zget_Some; exact Hm). injection Hx as <-. apply (HI c m Hm).
      - rewrite zget_zset_other in Hx by congruence. apply HI, Hx. }
    destruct R; [exact HI|intros b x; apply KN|intros b x; apply KN|exact HI].
  - destruct Hop. apply (Koff c p); assumption.
  - destruct Hop as (Hc & Hk & Hv). destruct (ok_ch_get _ _ Hs Hc) as (m & Hm & _).
    assert (Ha := HI c m Hm). assert (Ha' := Ha). destruct Ha' as (A1 & A2 & A3 & A4 & A5 & A6 & A7 & A8 & A9).
    destruct (midi_cc_result _ _ _ _ m _ _ Hs Hc Hv Hm E) as (o' & R & _). clear E.
    destruct R as [m' Hf|Hk'|Hk'|Hk'|s1 Hk' E|Hk'|s1 o1 Hk' E|Hk' _|Hk' Hr|Hk'|o1 Hk' _|Hk'|devs o1 Hk' HH].
    + apply (zset_settings f s _ c m m'); [exact HI|exact Hm|reflexivity|]. unfold cc_field in Hf. unfold after_cc.
      destruct (Z.eqb_spec k 5) as [->|H5]; [destruct (zget portaTimeToInterval v); [|discriminate]; injection Hf as <-; exact Ha|].
      destruct (Z.eqb_spec k 86) as [->|H86]; [destruct (md_nogm s); [discriminate|]; injection Hf as <-; exact Ha|].
      destruct (Z.eqb_spec k 65) as [->|H65]; [injection Hf as <-; exact Ha|].
      destruct (Z.eqb_spec k 85) as [->|H85]; [destruct (md_nogm s); [discriminate|]; injection Hf as <-; exact Ha|].
      destruct (Z.eqb_spec k 101) as [->|H101].
      { injection Hf as <-. assert (X := update_msb m (f c) v Ha Hv). unfold agrees. rewrite X. cbn. unfold rpn_of; cbn. repeat split; assumption || apply Hv. }
      destruct (Z.eqb_spec k 100) as [->|H100]; [|discriminate].
      injection Hf as <-. assert (X := update_lsb m (f c) v Ha Hv). unfold agrees. rewrite X. cbn. unfold rpn_of; cbn. repeat split; assumption || apply Hv.
    + subst k. eapply zset_settings; [exact HI|exact Hm|reflexivity|]. unfold agrees, rpn_of in *. cbn. tauto.
    + subst k. eapply zset_settings; [exact HI|exact Hm|reflexivity|]. unfold agrees, rpn_of in *. cbn. tauto.
    + replace (after_cc (f c) k v) with (f c) by (destruct Hk' as [-> | ->]; reflexivity).
      apply (same_settings f s _ c m); [exact HI|exact Hm|reflexivity].
    + subst k. apply (same_settings f s _ c m); [exact HI|exact Hm|]. apply (set_poly_eq _ _ _ _ Hs E).
    + subst k. apply (same_settings f s _ c m); [exact HI|exact Hm|reflexivity].
    + subst k. rewrite (resetAll_eq _ _ Hs Hc) in E. injection E as <- _.
      eapply zset_settings; [exact HI|exact Hm|reflexivity|]. cbn. apply agrees_default.
    + subst k. apply (same_settings f s _ c m); [exact HI|exact Hm|reflexivity].
    + assert (Hsel : range_selected (f c) = true) by (rewrite <- rpn_zero by assumption; lia).
      eapply zset_settings; [exact HI|exact Hm|reflexivity|]. unfold after_cc, set_range.
      destruct Hk' as [-> | ->]; cbn [Z.eqb Pos.eqb andb]; rewrite Hsel; unfold agrees, rpn_of in *; cbn;
        rewrite ?s8_seven by assumption; tauto.
    + replace (after_cc (f c) k v) with (f c); [apply (same_settings f s _ c m); [exact HI|exact Hm|reflexivity]|].
      unfold after_cc. destruct Hk' as [[Hk1 Hk2]|[Hk1|[Hk1 _]]].
      * assert (Hsel : range_selected (f c) = false) by (rewrite <- rpn_zero by assumption; lia).
        rewrite Hsel, !andb_false_r. destruct Hk1 as [-> | ->]; reflexivity.
      * destruct Hk1 as [-> | [-> | [-> | ->]]]; reflexivity.
      * destruct Hk1 as [-> | [-> | ->]]; reflexivity.
    + subst k. apply (same_settings f s _ c m); [exact HI|exact Hm|reflexivity].
    + replace (after_cc (f c) k v) with (f c); [apply (same_settings f s _ c m); [exact HI|exact Hm|reflexivity]|].
      unfold after_cc. cbn [In] in Hk'.
      destruct (Z.eqb_spec k 7); [exfalso; lia|]. destruct (Z.eqb_spec k 10); [exfalso; lia|]. destruct (Z.eqb_spec k 101); [exfalso; lia|].
      destruct (Z.eqb_spec k 100); [exfalso; lia|]. destruct (Z.eqb_spec k 6); [exfalso; lia|]. destruct (Z.eqb_spec k 38); [exfalso; lia|].
      destruct (Z.eqb_spec k 121); [exfalso; lia|]. reflexivity.
    + subst k. apply (same_settings f s _ c m); [exact HI|exact Hm|reflexivity].
  - destruct Hop as (Hc & _). destruct (ok_ch_get _ _ Hs Hc) as (m & Hm & _). assert (Ha := HI c m Hm).
    rewrite (midi_program_eq _ _ _ m Hm) in E. injection E as <- <-.
    eapply zset_settings; [exact HI|exact Hm|reflexivity|]. unfold agrees, rpn_of in *. cbn. tauto.
  - destruct Hop as (Hc & _). destruct (ok_ch_get _ _ Hs Hc) as (m & Hm & _). assert (Ha := HI c m Hm).
    rewrite (midi_pitch_bend_eq _ _ _ m Hm) in E. injection E as <- <-.
    eapply zset_settings; [exact HI|exact Hm|reflexivity|]. unfold agrees, rpn_of in *. cbn. tauto.
  - destruct (is_gm_reset data) eqn:Eg.
    + rewrite (gm_sysex _ _ Eg) in E. destruct (gm_reset_eq s Hs) as (devs & o2 & o3 & E' & _). rewrite E' in E. injection E as <- <-.
      apply default_inv. reflexivity.
    + apply midi_sysex_result in E. destruct E as [|t s1 o1 Ed E|a b s1 Ed E|a Ed|a Ed|a Ed|a Ed|o1 _]; try exact HI.
      * rewrite Ed in Eg. discriminate.
      * destruct Hop as (H7 & _). rewrite Ed in H7. do 4 apply Forall_inv_tail in H7.
        assert (Hx := Forall_inv H7). assert (Hy := Forall_inv (Forall_inv_tail H7)). unfold seven in *.
        destruct (remap_eq a b s ltac:(apply Hs) ltac:(lia) ltac:(lia)) as [E'|(_ & i & d & a' & Hd & _ & E' & _)];
          rewrite E' in E; injection E as <-; exact HI.
      * intros c m. unfold ch_at. destruct (set_dynamic_rest (negb (a =? 0)) s) as (-> & _). apply HI.
  - unfold reset in E. do 3 apply emit_inv in E as (? & E & ->). cbv zeta in E.
    rewrite reset_channels_eq in E by apply Hs. injection E as <- <-. apply default_inv. reflexivity.
  - rewrite (midi_tick_eq _ Hs) in E. injection E as <- <-. exact HI.
  - injection E as <- <-. exact HI.
Qed.
Lemma settings_boot ops s o : boots_to ops s o -> midi_ok s /\ settings_inv (settings ops) s.
Proof.
  intros Hb.
  apply (boot_induction settings_after (fun _ => default_setting) (fun _ => True) settings_inv)
    with (ops := ops) (o := o); [apply default_inv; reflexivity| |apply Forall_forall; auto|exact Hb].
  intros op h s0 s' o' H1 H2 H3 H4 H5 H6. apply (settings_step op h s0 s' o'); assumption.
Qed.
