(** Static mapping: each MIDI channel drives its own sound channel. *)
From Verif Require Import Base BaseLemmas PitchModel PitchProofs NotePriorityModel NotePriorityProofs SynthModel.
From Verif Require Import MidiModel MidiSpec MidiProofs MidiOkProofs MidiEqProofs MidiEffectProofs MidiNoteProofs MidiHistProofs MidiMapProofs.

Lemma static_booted : static_map booted.
Proof. split; [reflexivity|]. intros i d Hd. apply (booted_dev i d Hd). Qed.

Lemma static_devs s s' : md_dyn s' = md_dyn s ->
  (forall i d', dev_at s' i d' -> exists d, dev_at s i d /\ (d_midi d' = d_midi d \/ d_midi d' = i)) ->
  static_map s -> static_map s'.
Proof.
  intros Hd H [H1 H2]. split; [congruence|]. intros i d' Hd'. destruct (H i d' Hd') as (d & Hdd & [-> | ->]); [|reflexivity].
  apply (H2 i d Hdd).
Qed.
Lemma map_midi s (f : dev -> dev) i d' : (forall d, d_midi (f d) = d_midi d) -> zget (map f (md_dev s)) i = Some d' ->
  exists d, dev_at s i d /\ (d_midi d' = d_midi d \/ d_midi d' = i).
Proof. intros Hf H. apply dev_map in H as (d & Hd & ->). eauto. Qed.
Lemma at_chan_midi c g d : (forall e, d_midi (g e) = d_midi e) -> d_midi (at_chan c g d) = d_midi d.
Proof. intros H. unfold at_chan. destruct (_ =? _); [apply H|reflexivity]. Qed.
Lemma note_off_midi s m c p d : d_midi (note_off_dev s m c p d) = d_midi d.
Proof.
  unfold note_off_dev. destruct (serves_note c p d); [|reflexivity].
  destruct (falls_back s m c p); [unfold retrig_dev; destruct (m_porta m)|]; reflexivity.
Qed.
Lemma static_chosen s m c i d : static_map s -> chosen s m c = Some i -> dev_at s i d -> i = c /\ d_midi d = c.
Proof.
  intros [H1 H2] Hc Hd. destruct (chosen_cases _ _ _ _ _ Hc Hd) as (_ & H & _). specialize (H H1).
  rewrite <- (H2 i d Hd). auto.
Qed.
Lemma one_dev_midi s i d d' j x : dev_at s i d -> d_midi d' = d_midi d -> zget (zset (md_dev s) i d') j = Some x ->
  exists y, dev_at s j y /\ (d_midi x = d_midi y \/ d_midi x = j).
Proof.
  intros Hd Hm H. destruct (Z.eq_dec j i) as [->|Hj].
  - rewrite zget_zset_same in H by (eapply zget_Some; exact Hd). injection H as <-. eauto.
  - rewrite zget_zset_other in H by congruence. eauto.
Qed.

Lemma static_step op (h : unit) s s' o :
  ~ remaps op -> mop_ok op -> midi_ok s -> static_map s -> steps s op s' o -> midi_ok s' -> static_map s'.
Proof.
  intros Hr Hop Hs Hst E _. unfold steps in E.
  assert (Koff : forall c p, is_chan c -> midi_note_off c p s = WDone s' o -> static_map s').
  { intros c p Hc E1. destruct (ok_ch_get _ _ Hs Hc) as (m & Hm & _).
    destruct (note_off_effect _ _ _ _ _ m Hs Hc Hm E1) as (_ & _ & st & _ & _ & ->).
    apply (static_devs s); [reflexivity| |exact Hst]. intros i d'. apply map_midi, note_off_midi. }
  assert (Kid : forall i d', dev_at s i d' -> exists d, dev_at s i d /\ (d_midi d' = d_midi d \/ d_midi d' = i)) by eauto.
  destruct op as [c p v|c p|c k v|c p|c b|data| | |cb]; cbn [midi_step mop_ok] in *.
  - destruct Hop as (Hc & Hp & _). destruct (Z.eqb_spec v 0) as [->|Hv]; [apply (Koff c p); auto|].
    destruct (ok_ch_get _ _ Hs Hc) as (m & Hm & _).
    destruct (midi_note_on_eq c p v s m Hs Hc Hp Hv Hm) as (s1 & o1 & E2 & R). rewrite E in E2. injection E2 as <- <-.
    destruct R as [|i d st Ht Ci Hd _ _ _ Hpo _|i d st Ht Ci Hd _ _ Ek _|i d Ht Ci Hd _]; [exact Hst| | |];
      destruct (static_chosen s m c i d Hst Ci Hd) as [Hi Hmi];
      (apply (static_devs s); [reflexivity| |exact Hst]); intros j x; apply (one_dev_midi s i d); try exact Hd.
    + reflexivity.
    + destruct (started_note (m_set_vel (m_set_np m st) v) c p (d_set_glide d 0)) as (_ & -> & _). auto.
    + destruct (started_note m c p d) as (_ & -> & _). auto.
  - destruct Hop. apply (Koff c p); assumption.
  - destruct Hop as (Hc & Hk & Hv). destruct (ok_ch_get _ _ Hs Hc) as (m & Hm & _).
    destruct (midi_cc_result _ _ _ _ m _ _ Hs Hc Hv Hm E) as (o' & R & _). clear E.
    assert (Hk84 : k <> 84) by (intros ->; apply Hr; left; exists c, v; reflexivity).
    destruct R as [m' Hf|Hk'|Hk'|Hk'|s1 Hk' E|Hk'|s1 o1 Hk' E|Hk' _|Hk' _|_|o1 Hk' _|_|devs o1 Hk' HH];
      try exact Hst; try contradiction; try (apply (static_devs s); [reflexivity| |exact Hst]);
      try exact Kid; try (intros i d'; apply map_midi; intros d; apply at_chan_midi; reflexivity).
    + rewrite (resetAll_eq _ _ Hs Hc) in E. injection E as <- _. destruct Hst as [H1 H2].
      split; [exact H1|]. intros i d'. unfold dev_at. cbn [md_dev]. rewrite zget_assign, H1.
      destruct (zget _ i); [|discriminate]. intros [= <-]. reflexivity.
    + destruct HH as [[-> _]|(-> & _)]; [exact Kid|]. intros i d'. unfold dev_at. cbn [md_dev md_set_dev].
      rewrite dac_devs_get. destruct (zget (md_dev s) i) as [d|]; [|discriminate]. intros [= <-].
      exists d. split; [reflexivity|]. left. unfold dac_dev. destruct (i =? 5); reflexivity.
  - destruct Hop as (Hc & _). destruct (ok_ch_get _ _ Hs Hc) as (m & Hm & _).
    rewrite (midi_program_eq _ _ _ m Hm) in E. injection E as <- <-.
    apply (static_devs s); [reflexivity| |exact Hst]. intros i d'; apply map_midi; intros d; apply at_chan_midi; reflexivity.
  - destruct Hop as (Hc & _). destruct (ok_ch_get _ _ Hs Hc) as (m & Hm & _).
    rewrite (midi_pitch_bend_eq _ _ _ m Hm) in E. injection E as <- <-.
    apply (static_devs s); [reflexivity| |exact Hst]. intros i d'; apply map_midi; intros d; apply at_chan_midi.
    intros e. destruct (d_on e); reflexivity.
  - apply midi_sysex_result in E. destruct E as [|t s1 o1 Ed E|a b s1 Ed E|a Ed|a Ed|a Ed|a Ed|o1 _]; try exact Hst.
    + exfalso. apply Hr. right; right; right. exists t. rewrite Ed. reflexivity.
    + exfalso. apply Hr. right; left. exists [a; b]. rewrite Ed. reflexivity.
    + exfalso. apply Hr. right; right; left. exists [a]. rewrite Ed. reflexivity.
  - unfold reset in E. do 3 apply emit_inv in E as (? & E & ->). cbv zeta in E.
    rewrite reset_channels_eq in E by apply Hs. injection E as <- <-. split; [reflexivity|].
    intros i d' Hd'. apply reset_dev_get in Hd' as (Hi & d & Hd & ->); [|apply Hs]. reflexivity.
  - rewrite (midi_tick_eq _ Hs) in E. injection E as <- <-.
    apply (static_devs s); [reflexivity| |exact Hst]. intros i d'; apply map_midi. intros d. apply tick_same.
  - injection E as <- <-. exact Hst.
Qed.
Lemma static_boot ops s o : Forall (fun op => ~ remaps op) ops -> boots_to ops s o -> midi_ok s /\ static_map s.
Proof.
  intros HP Hb.
  apply (boot_induction (fun (_ : unit) _ => tt) tt (fun op => ~ remaps op) (fun _ => static_map))
    with (ops := ops) (o := o); [exact static_booted| |exact HP|exact Hb].
  intros op h s0 s' o' H1 H2 H3 H4 H5 H6. apply (static_step op h s0 s' o'); assumption.
Qed.

(** ** What a note or setting message touches *)
Lemma static_voice_of s c i d : midi_ok s -> static_map s -> serves s c i d -> static_voice c (d_ops d, d_num d).
Proof.
  intros Hs [_ H] [Hd Hc]. assert (Hi := H i d Hd). rewrite Hc in Hi. subst i.
  destruct (ok_dev _ _ _ Hs Hd) as [(Hsh & _) Hr]. destruct Hsh as (S1 & S2 & S3). unfold static_voice.
  destruct (Z_lt_le_dec c 6) as [Hc6|Hc6]; [|destruct (Z_lt_le_dec c 10)].
  - destruct (S1 Hc6) as [-> [-> | [-> ->]]]; [left|right; left]; auto. split; [lia|reflexivity].
  - destruct S2 as [-> ->]; [lia|]. right; right; left. auto.
  - destruct S3 as [-> ->]; [lia|]. right; right; right. split; [lia|reflexivity].
Qed.
Lemma calls_at_routed s c h :
  (forall d x, In x (h d) -> call_voice x = Some (d_ops d, d_num d)) ->
  Forall (routed s c) (flat_map (calls_at c h) (md_dev s)).
Proof.
  intros Hh. apply Forall_forall. intros x Hx. apply in_flat_map in Hx as (d & Hd & Hx).
  unfold calls_at in Hx. destruct (Z.eqb_spec (d_midi d) c) as [Hc|]; [|destruct Hx].
  destruct (In_zget _ _ Hd) as [i Hi]. unfold routed. rewrite (Hh d x Hx). exists i, d. split; [split; assumption|reflexivity].
Qed.
Lemma sync_routed s c i d0 m d : serves s c i d0 -> d_ops d = d_ops d0 -> d_num d = d_num d0 -> d_midi d = c ->
  Forall (routed s c) (sync_calls m d).
Proof.
  intros Hd H1 H2 H3. unfold sync_calls. rewrite H1, H2, H3.
  apply Forall_app; split.
  { apply Forall_cons; [|constructor]. unfold routed; cbn. split; [reflexivity|]. exists i, d0. auto. }
  assert (R1 : forall x, call_voice x = Some (d_ops d0, d_num d0) -> Forall (routed s c) [x]).
  { intros x Hx. apply Forall_cons; [|constructor]. unfold routed. rewrite Hx. exists i, d0. auto. }
  repeat (apply Forall_app; split);
    match goal with |- Forall _ (if ?b then _ else _) => destruct b end; try apply Forall_nil; apply R1; reflexivity.
Qed.

Lemma setting_routed op s s' o c :
  midi_ok s -> mop_ok op -> static_map s -> note_or_setting c op -> steps s op s' o ->
  Forall (routed s c) o /\
  (forall i d, dev_at s i d -> i <> c -> dev_at s' i d) /\
  (forall b m, ch_at s b m -> b <> c -> ch_at s' b m).
Proof.
  intros Hs Hop Hst Hn E. unfold steps in E.
  assert (KM : forall (f : dev -> dev) i d, (forall e, d_midi e <> c -> f e = e) -> dev_at s i d -> i <> c ->
     zget (map f (md_dev s)) i = Some d).
  { intros f i d Hf Hd Hi. rewrite zget_map, Hd. cbn [option_map]. f_equal. apply Hf.
    destruct Hst as [_ H]. rewrite (H i d Hd). exact Hi. }
  assert (KA : forall g e, d_midi e <> c -> at_chan c g e = e).
  { intros g e He. unfold at_chan. replace (d_midi e =? c) with false by lia. reflexivity. }
  assert (KC : forall m' b m, ch_at s b m -> b <> c -> zget (zset (md_ch s) c m') b = Some m).
  { intros m' b m Hm Hb. rewrite zget_zset_other by congruence. exact Hm. }
  assert (KD : forall d' i d, dev_at s i d -> i <> c -> zget (zset (md_dev s) c d') i = Some d).
  { intros d' i d Hd Hi. rewrite zget_zset_other by congruence. exact Hd. }
  assert (Koff : forall p, is_chan c -> midi_note_off c p s = WDone s' o ->
    Forall (routed s c) o /\ (forall i d, dev_at s i d -> i <> c -> dev_at s' i d) /\
    (forall b m, ch_at s b m -> b <> c -> ch_at s' b m)).
  { intros p Hc E1. destruct (ok_ch_get _ _ Hs Hc) as (m & Hm & _).
    destruct (note_off_effect _ _ _ _ _ m Hs Hc Hm E1) as (_ & -> & st & _ & _ & ->).
    split; [|split; [intros i d; apply KM|apply KC]].
    - apply Forall_forall. intros x Hx. apply in_flat_map in Hx as (d & Hd & Hx). destruct (In_zget _ _ Hd) as [i Hi].
      assert (Hx' : call_voice x = Some (d_ops d, d_num d) /\ d_midi d = c).
      { unfold note_off_calls, retrig_calls, off_calls in Hx.
        assert (Hsv : serves_note c p d = true -> d_midi d = c).
        { unfold serves_note. intros H. apply andb_prop in H as [H _]. lia. }
        destruct (falls_back s m c p), (serves_note c p d); try (destruct Hx); try (destruct (m_porta m) in Hx; destruct Hx);
          subst; try contradiction; split; auto; try reflexivity. }
      destruct Hx' as [Hx1 Hx2]. unfold routed. rewrite Hx1. exists i, d. split; [split; assumption|reflexivity].
    - intros e He. unfold note_off_dev, serves_note. replace (d_midi e =? c) with false by lia. reflexivity. }
  destruct Hn as [(p & v & ->)|[(p & ->)|[(k & v & -> & Hk)|[(p & ->)|(b & ->)]]]]; cbn [midi_step mop_ok] in *.
  - destruct Hop as (Hc & Hp & _). destruct (Z.eqb_spec v 0) as [->|Hv]; [apply (Koff p); auto|].
    destruct (ok_ch_get _ _ Hs Hc) as (m & Hm & _).
    destruct (midi_note_on_eq c p v s m Hs Hc Hp Hv Hm) as (s1 & o1 & E2 & R). rewrite E in E2. injection E2 as <- <-.
    assert (KS : forall i d e mm, dev_at s i d -> d_midi d = c -> d_ops e = d_ops d -> d_num e = d_num d -> d_midi e = d_midi d ->
       Forall (routed s c) (start_calls mm c p v e)).
    { intros i d e mm Hd Hdm H1 H2 H3. unfold start_calls. rewrite H3, Hdm, H1, H2.
      replace ((c =? 9) && negb (c =? 9)) with false by (destruct (c =? 9); reflexivity). cbn [app].
      apply Forall_app; split; [apply (sync_routed s c i d); [split; assumption|exact H1|exact H2|reflexivity]|].
      apply Forall_cons; [|constructor]. unfold routed; cbn. exists i, d. split; [split; assumption|reflexivity]. }
    destruct R as [|i d st Ht Ci Hd _ _ _ Hpo _|i d st Ht Ci Hd _ _ Ek _|i d Ht Ci Hd _];
      [split; [constructor|split; auto]| | |]; destruct (static_chosen s m c i d Hst Ci Hd) as [-> Hmi];
      (split; [|split; [intros j x; apply KD|]]).
    + constructor.
    + intros b x; apply KC.
    + apply (KS c d); auto.
    + intros b x; apply KC.
    + apply (KS c d); auto.
    + auto.
  - destruct Hop. apply (Koff p); assumption.
  - destruct Hop as (Hc & _ & Hv). destruct (ok_ch_get _ _ Hs Hc) as (m & Hm & _).
    destruct (midi_cc_result _ _ _ _ m _ _ Hs Hc Hv Hm E) as (o' & R & ->).
    assert (KCB : forall b : bool, Forall (routed s c) (if b then [DChange 2 c k v] else [])).
    { intros [|]; [|constructor]. apply Forall_cons; [reflexivity|constructor]. }
    destruct R as [m' Hf|Hk'|Hk'|Hk'|s1 Hk' _|Hk'|s1 o1 Hk' _|Hk' _|Hk' _|Hk'|o1 Hk' _|Hk'|devs o1 Hk' HH]; try lia.
    + exfalso. unfold cc_field in Hf. destruct Hk as [-> | [-> | [-> | ->]]]; discriminate.
    + split; [apply Forall_app; split; [apply calls_at_routed|apply KCB]|split; [intros i d; apply KM; intros e; apply KA|intros b x; apply KC]].
      intros d x. destruct (_ =? _); [intros []|intros [<-|[]]; reflexivity].
    + split; [apply Forall_app; split; [apply calls_at_routed|apply KCB]|split; [intros i d; apply KM; intros e; apply KA|intros b x; apply KC]].
      intros d x. destruct (_ =? _); [intros []|intros [<-|[]]; reflexivity].
    + split; [apply Forall_app; split; [apply calls_at_routed|apply KCB]|split; [intros i d; apply KM; intros e; apply KA|auto]].
      intros d x [<-|[]]; reflexivity.
    + exfalso. apply Hk'. destruct Hk as [-> | [-> | [-> | ->]]]; cbn; tauto.
  - destruct Hop as (Hc & _). destruct (ok_ch_get _ _ Hs Hc) as (m & Hm & _).
    rewrite (midi_program_eq _ _ _ m Hm) in E. injection E as <- <-.
    split; [apply Forall_app; split; [apply calls_at_routed|]|split; [intros i d; apply KM; intros e; apply KA|intros b x; apply KC]].
    + intros d x. destruct (_ =? _); [intros []|intros [<-|[]]; reflexivity].
    + destruct (md_cb s); [|constructor]. apply Forall_cons; [reflexivity|constructor].
  - destruct Hop as (Hc & _). destruct (ok_ch_get _ _ Hs Hc) as (m & Hm & _).
    rewrite (midi_pitch_bend_eq _ _ _ m Hm) in E. injection E as <- <-.
    split; [apply calls_at_routed|split; [intros i d; apply KM; intros e; apply KA|intros b' x; apply KC]].
    intros d x. destruct (d_on d); [destruct (_ =? _)|]; intros Hx; try (destruct Hx as [<-|[]]); try destruct Hx; reflexivity.
Qed.

(** A note on a free device channel starts there. *)
Lemma static_single s c : midi_ok s -> static_map s -> 0 <= c < 13 -> voice_count c false (md_dev s) = 1.
Proof.
  intros Hs [_ H] Hc.
  assert (K : forall l k, (forall i d, zget l i = Some d -> d_midi d = k + i) ->
    voice_count c false l = if (k <=? c) && (c <? k + Z.of_nat (length l)) then 1 else 0).
  { induction l as [|d t IH]; intros k Hk; cbn [voice_count length].
    - destruct (Z.leb_spec k c), (Z.ltb_spec c (k + Z.of_nat 0)); cbn; lia.
    - rewrite (IH (k + 1)).
      + rewrite (Hk 0 d eq_refl), andb_true_r.
        destruct (Z.eqb_spec (k + 0) c), (Z.leb_spec (k + 1) c), (Z.leb_spec k c),
          (Z.ltb_spec c (k + 1 + Z.of_nat (length t))), (Z.ltb_spec c (k + Z.of_nat (S (length t)))); cbn; lia.
      + intros i e He. assert (Hi := zget_Some _ _ _ He). replace (k + 1 + i) with (k + (i + 1)) by lia. apply Hk.
        rewrite zget_cons. replace (i + 1 =? 0) with false by lia. replace (i + 1 - 1) with i by lia. exact He. }
  rewrite (K _ 0) by (intros i d Hd; rewrite (H i d Hd); lia).
  destruct Hs as (-> & _). destruct (Z.leb_spec 0 c), (Z.ltb_spec c (0 + Z.of_nat 13)); cbn; lia.
Qed.
Lemma static_placed s c p v s' o m d :
  midi_ok s -> is_chan c -> seven p -> v <> 0 -> static_map s -> dev_at s c d -> ch_at s c m -> d_on d = false ->
  (length (keys (m_np m)) < 10)%nat -> m_porta m = false -> steps s (MNoteOn c p v) s' o ->
  (exists d', dev_at s' c d' /\ d_on d' = true /\ d_midi d' = c /\ d_pitch d' = p /\ d_glide d' = 0) /\
  exists pp cc, last o (DChange 0 0 0 0) = DNoteOn (d_ops d) (d_num d) pp cc v.
Proof.
  intros Hs Hc Hp Hv Hst Hd Hm Hon Hk Hpo E. unfold steps in E; cbn [midi_step] in E.
  assert (Hc13 : 0 <= c < 13) by (destruct (ok_dev _ _ _ Hs Hd); assumption).
  destruct (midi_note_on_eq c p v s m Hs Hc Hp Hv Hm) as (s1 & o1 & E2 & R). rewrite E in E2. injection E2 as <- <-.
  destruct R as [[Ht|[Ht|[_ Ht]]]|i e st Ht Ci He _ _ _ Hpo' _|i e st Ht Ci He _ _ Ek _|i e Ht Ci He Hvc].
  - exfalso. unfold tooManyPercussiveNotes in Ht. destruct (negb _); [discriminate|]. rewrite perc_loop_count in Ht by lia.
    assert (N : (length (filter perc (md_dev s)) <= 1)%nat).
    { apply (filter_one _ _ 9). intros j x Hx Hpx. apply andb_prop in Hpx as [Hpx _]. destruct Hst as [_ H2].
      rewrite <- (H2 j x Hx). lia. }
    apply Z.leb_le in Ht. lia.
  - exfalso. unfold chosen in Ht. destruct (device_min_max (m_sel m)) as [lo hi]. destruct Hst as [H1 H2]. rewrite H1 in Ht.
    destruct (first_dev _ _ _) in Ht; [discriminate|]. cbn [orelse] in Ht. unfold by_midi in Ht.
    assert (X := first_dev_none _ _ _ _ c d Ht ltac:(lia) Hd). cbv beta in X. rewrite (H2 c d Hd) in X. lia.
  - lia.
  - congruence.
  - destruct (static_chosen s m c i e Hst Ci He) as [-> Hmi]. rewrite Hd in He. injection He as <-. split.
    + exists (started (m_set_vel (m_set_np m st) v) c p (d_set_glide d 0)). split.
      * unfold dev_at. cbn [md_dev md_set_dev]. rewrite zget_zset_same; [reflexivity|eapply zget_Some; exact Hd].
      * destruct (started_note (m_set_vel (m_set_np m st) v) c p (d_set_glide d 0)) as (-> & -> & -> & ->). auto.
    + unfold start_calls. rewrite !app_assoc, last_last. eexists _, _. reflexivity.
  - exfalso. apply Hvc. apply static_single; assumption.
Qed.
