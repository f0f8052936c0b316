(** A chord on the device channels of one MIDI channel, in every mode. *)
From Verif Require Import Base BaseLemmas PitchModel PitchSpec PitchProofs SynthModel SynthSpec SynthProofs SynthMirrorProofs SynthClaimsProofs SynthViewProofs.
From Verif Require Import MidiModel MidiSpec MidiProofs MidiOkProofs MidiEqProofs MidiEffectProofs MidiCallProofs MidiChanProofs MidiTuneProofs MidiDevProofs MidiInvProofs MidiStaticProofs MidiPlaceProofs.
From Verif Require Import PsgModel DevModel DevSpec DevProofs AppModel AppSpec AppProofs AppTraceProofs AppClaimsProofs AppViewProofs AppKeyProofs SoundSpec AppSoundProofs AppToneProofs.
From Verif Require Import AppNoteProofs MidiStaticProofs AssignSpec AssignProofs.

Lemma find_least (p : Z -> bool) n : forall a i, find p (zseq a n) = Some i -> forall k, In k (zseq a n) -> p k = true -> i <= k.
Proof.
  induction n as [|n IH]; intros a i H k Hk Hp; cbn [zseq find] in *; [discriminate|].
  assert (R := Hk). change (In k (zseq a (S n))) in R. apply in_zseq in R.
  destruct (p a) eqn:Ea; [injection H as <-; lia|]. destruct Hk as [<-|Hk]; [congruence|]. exact (IH _ _ H k Hk Hp).
Qed.
Lemma voices_one c l : forall j e, zget l j = Some e -> d_midi e = c -> 1 <= voice_count c false l.
Proof.
  induction l as [|x t IH]; intros j e Hj Ec; [assert (X := zget_Some _ _ _ Hj); cbn in X; lia|].
  cbn [voice_count]. rewrite andb_true_r. assert (X := voice_count_nonneg c false t). rewrite zget_cons in Hj.
  destruct (Z.eqb_spec j 0); [injection Hj as ->; rewrite Ec, Z.eqb_refl; lia|]. specialize (IH _ _ Hj Ec). destruct (_ =? _); lia.
Qed.
Lemma voices_two c l : forall i j d e, i < j -> zget l i = Some d -> zget l j = Some e -> d_midi d = c -> d_midi e = c -> 2 <= voice_count c false l.
Proof.
  induction l as [|x t IH]; intros i j d e Hij Hi Hj Dc Ec; [assert (X := zget_Some _ _ _ Hi); cbn in X; lia|].
  assert (Ri := zget_Some _ _ _ Hi). cbn [voice_count]. rewrite andb_true_r. rewrite zget_cons in Hi, Hj. replace (j =? 0) with false in Hj by lia.
  destruct (Z.eqb_spec i 0).
  - injection Hi as ->. rewrite Dc, Z.eqb_refl. assert (X := voices_one c t _ _ Hj Ec). lia.
  - specialize (IH (i - 1) (j - 1) _ _ ltac:(lia) Hi Hj Dc Ec). destruct (_ =? _); lia.
Qed.
(** A note takes a free FM channel of its MIDI channel, if there is one. *)
Lemma chord_starts s c k p v s' o m d k2 d2 : midi_ok s -> is_chan c -> c <> 9 -> seven p -> v <> 0 -> 0 <= k < 6 -> dev_at s k d -> d_on d = false -> d_midi d = c ->
  dev_at s k2 d2 -> k2 <> k -> d_midi d2 = c -> ch_at s c m -> 0 <= m_sel m <= 1 -> steps s (MNoteOn c p v) s' o ->
  exists i e, 0 <= i <= k /\ dev_at s i e /\ d_on e = false /\ d_midi e = c /\ o = start_calls m c p v e.
Proof.
  intros Hs Hc N9 Hp Hv Hk Hd Off Dk Hd2 N2 Dk2 Hm Hsel E. unfold steps in E; cbn [midi_step] in E.
  destruct (midi_note_on_eq c p v s m Hs Hc Hp Hv Hm) as (s1 & o1 & E2 & R). rewrite E in E2. injection E2 as <- <-.
  assert (V : 2 <= voice_count c false (md_dev s)).
  { destruct (Z.lt_ge_cases k k2) as [L|L]; [exact (voices_two c _ k k2 d d2 L Hd Hd2 Dk Dk2)|exact (voices_two c _ k2 k d2 d ltac:(lia) Hd2 Hd Dk2 Dk)]. }
  assert (Su : forall e, suitable c e = negb (d_on e)).
  { intros e. unfold suitable, isChannelSuitable, isPsgAndIncomingChanIsPercussive. replace (c =? PERCUSSION) with false by (unfold PERCUSSION; lia).
    rewrite ?andb_false_r, ?andb_true_r. reflexivity. }
  assert (Q : exists i e, chosen s m c = Some i /\ 0 <= i <= k /\ zget (md_dev s) i = Some e /\ d_midi e = c /\ d_on e = false).
  { unfold chosen. assert (X : exists hi, device_min_max (m_sel m) = (0, hi) /\ 5 <= hi).
    { unfold device_min_max. destruct (Z.eqb_spec (m_sel m) 0); [exists 8; split; [reflexivity|lia]|]. replace (m_sel m =? 1) with true by lia. exists 5. split; [reflexivity|lia]. }
    destruct X as (hi & -> & Hhi). destruct (first_dev (md_dev s) (fun e => (d_midi e =? c) && suitable c e) (upto 0 hi)) as [i|] eqn:F.
    - destruct (first_dev_some _ _ _ _ _ F) as (Hi & e & He & Pe). apply andb_prop in Pe as [P1 P2]. rewrite Su in P2. apply negb_true_iff in P2.
      exists i, e. split; [reflexivity|]. split; [split; [lia|]|split; [exact He|split; [lia|exact P2]]].
      unfold first_dev, upto in F. apply (find_least _ _ _ _ F); [apply in_zseq; lia|]. unfold dev_at in Hd. rewrite Hd, Su, Dk, Z.eqb_refl, Off. reflexivity.
    - exfalso. assert (X := first_dev_none _ _ _ _ k d F ltac:(lia) Hd). cbv beta in X. rewrite Su, Dk, Z.eqb_refl, Off in X. discriminate X. }
  destruct Q as (i & e & Ci & Hi & He & De & Oe).
  destruct R as [[Ht|[Ht|[Hv1 _]]]|j x st Ht Cj Hx Hv1 _ _ Hpo' _|j x st Ht Cj Hx Hv1 _ Ek _|j x Ht Cj Hx Hvc].
  - exfalso. unfold tooManyPercussiveNotes in Ht. destruct (Z.eqb_spec c PERCUSSION) as [X|X]; [unfold PERCUSSION in X; lia|discriminate].
  - congruence.
  - lia.
  - lia.
  - lia.
  - rewrite Ci in Cj. injection Cj as <-. rewrite He in Hx. injection Hx as <-. exists i, e. auto.
Qed.

(** Striking a note on one FM channel leaves the others as they are. *)
Lemma start_elsewhere r j m c p v d w : d_ops d = VFm -> d_num d <> j -> fold_left (cv_step r j) (start_calls m c p v d) w = w.
Proof.
  intros O N. assert (A : forall x u, (call_voice x = Some (VFm, d_num d) \/ exists b, x = DPerc (d_num d) b) -> cv_step r j u x = u).
  { intros x u [H|[b ->]]; [exact (foreign r j x _ _ u H (or_intror N))|]. cbn [cv_step]. apply Z.eqb_neq in N. rewrite N. reflexivity. }
  assert (B : forall l u, Forall (fun x => call_voice x = Some (VFm, d_num d) \/ exists b, x = DPerc (d_num d) b) l -> fold_left (cv_step r j) l u = u).
  { induction l as [|x t IH]; intros u H; [reflexivity|]. apply Forall_cons_iff in H as [H1 H2]. cbn [fold_left]. rewrite (A x u H1). apply IH, H2. }
  apply B. unfold start_calls, sync_calls. cbn [prepared d_num d_ops d_midi d_set_pitch d_set_cents d_set_on d_set_midi]. rewrite !O.
  repeat (apply Forall_app; split); repeat match goal with |- Forall _ (if ?x then _ else _) => destruct x end; try apply Forall_nil;
    (apply Forall_cons; [first [left; reflexivity|right; eexists; reflexivity]|apply Forall_nil]).
Qed.
Lemma start_others r (Hr : rom_ok r) det j m c p v d s tr s' o : 0 <= j < 6 -> d_ops d = VFm -> d_num d <> j -> dev_inv s -> psg_good r (v_psg s) -> Forall dcall_ok (start_calls m c p v d) ->
  perform_all r det (start_calls m c p v d) s = Done tt s' o -> key_state (tr ++ o) j = key_state tr j /\ chip_freq (tr ++ o) j = chip_freq tr j.
Proof.
  intros Hj O N Hi Hg Hc P.
  set (w := mkCv (f_vol (fm_of s j)) (f_vel (fm_of s j)) (f_perc (fm_of s j)) (mkSv (key_state tr j) (vol (v_synth s) j) (c_st (chn (v_synth s) j)) no_preset (chip_freq tr j) true false) true).
  assert (W : cv_holds j w s tr).
  { repeat (split; [reflexivity|]). split; [|discriminate]. split; [reflexivity|]. split; [reflexivity|]. split; [discriminate|]. intros _. split; reflexivity. }
  assert (V := perform_all_view r Hr _ j _ Hj _ _ _ _ _ Hi Hg Hc (start_calls_plain _ _ _ _ _) P W). rewrite start_elsewhere in V by assumption.
  destruct V as (_ & _ & _ & (_ & _ & _ & V) & _). exact (V eq_refl).
Qed.

Theorem chord_heard r hw mem ops c k p v s0 tr0 d0 k2 d2 m0 : history r hw mem ops s0 tr0 -> is_chan c -> c <> 9 -> 0 <= k < 6 ->
  dev_at (a_midi s0) k d0 -> d_on d0 = false -> d_midi d0 = c -> dev_at (a_midi s0) k2 d2 -> k2 <> k -> d_midi d2 = c ->
  ch_at (a_midi s0) c m0 -> 0 <= m_sel m0 <= 1 ->
  MidiSpec.seven p -> 1 <= v <= 127 -> without (is_cc 78) ops ->
  0 <= bent (map message ops) c p -> 0 <= pitched (map message ops) c p -> 11 <= pitched (map message ops) c p / 100 <= 106 ->
  exists n d s o, 0 <= n < 6 /\ dev_at (a_midi s0) n d /\ d_on d = false /\ d_midi d = c /\
    history r hw mem (ops ++ [AMsg (MNoteOn c p v)]) s (tr0 ++ o) /\ key_state o n = Some true /\
    forall j, 0 <= j < 6 -> j <> n -> key_state (tr0 ++ o) j = key_state tr0 j /\ chip_freq (tr0 ++ o) j = chip_freq tr0 j.
Proof.
  intros H0 Hc N9 Hk Hd0 Off Dk Hd2 N2 Dk2 Hm0 Hsel Hp Hv W2 L1 L2 L3. assert (H' := H0). destruct H' as (Hr & Hm & Ho & E0).
  assert (Om : mop_ok (MNoteOn c p v)) by (cbn; unfold is_chan, MidiSpec.seven in *; lia).
  destruct (history_played _ _ _ _ _ _ H0) as (Hi & cs & B & P). assert (Hi' := Hi). destruct Hi' as (Hs & Hdi & Hg).
  assert (ND : forall j d, dev_at (a_midi s0) j d -> no_dac d).
  { apply (no_dac_boot _ _ _ B). apply Forall_forall. intros m Hin. exact (plain_messages (is_cc 78) ops (proj1 (cc_plain 78)) (proj2 (cc_plain 78)) W2 m Hin). }
  destruct (app_step_ok r Hr (AMsg (MNoteOn c p v)) s0 Hi Om) as [(s & o & so & po & E & _)|[[_ (s' & o & E & X)]|[_ X]]].
  2:{ exfalso. revert X. apply (no_dac_samples (MNoteOn c p v) (a_midi s0) s' o ND Om); [intros (x & y & [=])|exact Hs|exact E]. }
  2:{ destruct X as (x & [=] & _). }
  assert (H := history_snoc _ _ _ _ (AMsg (MNoteOn c p v)) _ _ _ _ H0 Om E). 
  destruct (history_last _ _ _ _ _ _ _ _ _ H0 H) as (_ & cs1 & St & Pa).
  destruct (chord_starts _ c k p v _ _ m0 d0 k2 d2 Hs Hc N9 Hp ltac:(lia) Hk Hd0 Off Dk Hd2 N2 Dk2 Hm0 Hsel St) as (n & d & Hnk & Hd & Od & Dd & E1).
  assert (Hn : 0 <= n < 6) by lia. exists n, d, s, o. split; [exact Hn|]. split; [exact Hd|]. split; [exact Od|]. split; [exact Dd|]. split; [exact H|].
  assert (Ops : d_ops d = VFm /\ d_num d = n).
  { destruct (ok_dev _ _ _ Hs Hd) as [Hdo _]. destruct Hdo as (Sh & _). destruct Sh as [S1 _]. destruct (S1 ltac:(lia)) as [S2 [S3|[_ S3]]]; [auto|]. exfalso. exact (ND n d Hd S3). }
  assert (Hs1 := step_ok _ _ _ _ Hs Om St). destruct Hs1 as [_ Hc1].
  enough (key_state o n = Some true) as Ky.
  { split; [exact Ky|]. intros j Hj Nj. rewrite E1 in Pa, Hc1. destruct Ops as [O1 O2].
    exact (start_others r Hr _ j _ _ _ _ _ _ tr0 _ _ Hj O1 ltac:(lia) Hdi Hg Hc1 Pa). }
  assert (NE : cs1 <> []) by (rewrite E1; unfold start_calls; destruct (_ && _); discriminate).
  destruct (note_calls _ _ _ _ _ _ Hs Om ltac:(lia) St NE) as (i & d1 & m & _ & _ & Hok & _ & E2 & Hch & _).
  assert (NF : ~ In DFmInit cs1) by (rewrite E1; apply start_calls_plain).
  assert (V := perform_all_view r Hr _ n _ Hn _ _ _ _ _ Hdi Hg Hc1 NF Pa (cv_now_holds n (a_dev s0))). cbn [Datatypes.app] in V.
  assert (Q : exists ce, last cs1 (DChange 0 0 0 0) = DNoteOn VFm n (pitched (map message ops) c p / 100) ce v).
  { assert (B1 : boots_to (MCallback true :: map message (ops ++ [AMsg (MNoteOn c p v)])) (a_midi s) (cs ++ cs1)).
    { rewrite map_app. apply (boots_snoc (MCallback true :: map message ops) (MNoteOn c p v) _ _ _ _ B Om St). }
    destruct (note_eff ops c p v s d1 m _ Hch Hok Hp B1 L1 L2) as [F1 _].
    assert (Y1 : last cs1 (DChange 0 0 0 0) = DNoteOn (d_ops d1) (d_num d1) (pc_pitch (eff m (started m c p d1))) (pc_cents (eff m (started m c p d1))) v)
      by (rewrite E2, start_calls_split, last_last; reflexivity).
    assert (Y2 : exists q ce, last cs1 (DChange 0 0 0 0) = DNoteOn VFm n q ce v).
    { rewrite E1, start_calls_split, last_last. cbn [d_ops d_num d_set_glide]. destruct Ops as [-> ->]. eauto. }
    destruct Y2 as (q & ce & Y2). rewrite Y1 in Y2. injection Y2 as Y3 Y4 Y5 Y6. rewrite Y1, Y3, Y4, F1. eauto. }
  destruct Q as (ce & Q). rewrite E2, start_calls_split, last_last in Q. rewrite E2, start_calls_split, Q, fold_left_app in V. cbn [fold_left] in V.
  fold (noted r n (fold_left (cv_step r n) (tuneup m c p d1) (cv_now n (a_dev s0))) (pitched (map message ops) c p / 100) ce v) in V.
  rewrite noted_eq in V by (unfold DevSpec.playable; apply andb_true_intro; split; apply Z.leb_le; lia). cbv zeta in V.
  destruct (tuneup_view r n m c p d1 (cv_now n (a_dev s0))) as (_ & T2 & _).
  destruct V as (_ & _ & _ & (_ & _ & _ & V) & _). cbn [v_raw v_key cv_sv] in V. apply V. rewrite T2. reflexivity.
Qed.

Theorem chord_pitch r hw mem ops c k p v s0 tr0 d0 k2 d2 m0 : history r hw mem ops s0 tr0 -> is_chan c -> c <> 9 -> 0 <= k < 6 ->
  dev_at (a_midi s0) k d0 -> d_on d0 = false -> d_midi d0 = c -> dev_at (a_midi s0) k2 d2 -> k2 <> k -> d_midi d2 = c ->
  ch_at (a_midi s0) c m0 -> 0 <= m_sel m0 <= 1 ->
  MidiSpec.seven p -> 1 <= v <= 127 -> without (is_cc 78) ops -> without raw_write ops ->
  let x := pitched (map message ops) c p in
  0 <= bent (map message ops) c p -> 0 <= x -> 11 <= x / 100 <= 106 ->
  exists n d s o, 0 <= n < 6 /\ dev_at (a_midi s0) n d /\ d_on d = false /\ d_midi d = c /\
    history r hw mem (ops ++ [AMsg (MNoteOn c p v)]) s (tr0 ++ o) /\ key_state o n = Some true /\
    chip_freq (tr0 ++ o) n = Some (fm_note r (x / 100) (x mod 100)) /\
    forall j, 0 <= j < 6 -> j <> n -> key_state (tr0 ++ o) j = key_state tr0 j /\ chip_freq (tr0 ++ o) j = chip_freq tr0 j.
Proof.
  intros H0 Hc N9 Hk Hd0 Off Dk Hd2 N2 Dk2 Hm0 Hsel Hp Hv W2 W3 x L1 L2 L3.
  destruct (chord_heard r hw mem ops c k p v s0 tr0 d0 k2 d2 m0 H0 Hc N9 Hk Hd0 Off Dk Hd2 N2 Dk2 Hm0 Hsel Hp Hv W2 L1 L2 L3) as (n & d & s & o & Hn & Hd & Od & Dd & H & Ke & Oth).
  exists n, d, s, o. do 5 (split; [assumption|]). split; [exact Ke|]. destruct (note_pitch r hw mem ops c p v s0 s tr0 o H0 H n Hn ltac:(lia) Ke W3 L1 L2) as (_ & _ & F).
  split; [|exact Oth]. rewrite F. replace (c =? 9) with false by lia. reflexivity.
Qed.
