(** Notes on re-assigned device channels, at the chip. *)
From Verif Require Import Base BaseLemmas PitchModel PitchSpec PitchProofs SynthModel SynthSpec SynthProofs SynthMirrorProofs SynthClaimsProofs SynthViewProofs.
From Verif Require Import MidiModel MidiSpec MidiProofs MidiOkProofs MidiEqProofs MidiEffectProofs MidiCallProofs MidiChanProofs MidiTuneProofs MidiDevProofs MidiInvProofs MidiStaticProofs MidiPlaceProofs.
From Verif Require Import PsgModel DevModel DevSpec DevProofs AppModel AppSpec AppProofs AppTraceProofs AppClaimsProofs AppViewProofs AppKeyProofs SoundSpec AppSoundProofs AppToneProofs.
From Verif Require Import AppNoteProofs MidiStaticProofs AssignSpec AssignProofs.

Theorem assigned_heard r hw mem ops c n p v s0 tr0 : history r hw mem ops s0 tr0 -> is_chan c -> c <> 9 -> 0 <= n < 6 -> only (assigned (map message ops)) c n ->
  MidiSpec.seven p -> 1 <= v <= 127 ->
  without asks_mode ops -> without (is_cc 78) ops -> tn_glide (tuned (map message ops)) c = false ->
  (length (filter (fun k => Z.eqb (fst k) c) (held (map message ops))) < 10)%nat ->
  0 <= bent (map message ops) c p -> 0 <= pitched (map message ops) c p -> 11 <= pitched (map message ops) c p / 100 <= 106 ->
  exists s o, history r hw mem (ops ++ [AMsg (MNoteOn c p v)]) s (tr0 ++ o) /\ key_state o n = Some true.
Proof.
  intros H0 Hc N9 Hn On Hp Hv W1 W2 G K L1 L2 L3. assert (H' := H0). destruct H' as (Hr & Hm & Ho & E0).
  assert (Om : mop_ok (MNoteOn c p v)) by (cbn; unfold is_chan, MidiSpec.seven in *; lia).
  destruct (history_played _ _ _ _ _ _ H0) as (Hi & cs & B & P). assert (Hi' := Hi). destruct Hi' as (Hs & Hdi & Hg).
  assert (ND : forall j d, dev_at (a_midi s0) j d -> no_dac d).
  { apply (no_dac_boot _ _ _ B). apply Forall_forall. intros m Hin. exact (plain_messages (is_cc 78) ops (proj1 (cc_plain 78)) (proj2 (cc_plain 78)) W2 m Hin). }
  assert (S : fixed_map (assigned (map message ops)) (a_midi s0)).
  { apply (fixed_boot (MCallback true :: map message ops) _ cs) with (2 := B). apply Forall_forall. intros m Hin. apply (plain_messages asks_mode ops); [| |exact W1|exact Hin].
    - intros [(a & b & [=])|[(a & [=])|(t & [=])]].
    - intros [(a & b & [=])|[(a & [=])|(t & [=])]]. }
  destruct (app_step_ok r Hr (AMsg (MNoteOn c p v)) s0 Hi Om) as [(s & o & so & po & E & _)|[[_ (s' & o & E & X)]|[_ X]]].
  2:{ exfalso. revert X. apply (no_dac_samples (MNoteOn c p v) (a_midi s0) s' o ND Om); [intros (x & y & [=])|exact Hs|exact E]. }
  2:{ destruct X as (x & [=] & _). }
  assert (H := history_snoc _ _ _ _ (AMsg (MNoteOn c p v)) _ _ _ _ H0 Om E). exists s, o. split; [exact H|].
  destruct (history_last _ _ _ _ _ _ _ _ _ H0 H) as (_ & cs1 & St & Pa).
  destruct (ok_ch_get (a_midi s0) c Hs Hc) as (m0 & Hm0 & Hok0).
  destruct (zget_in_range (md_dev (a_midi s0)) n) as [d Hd]; [destruct Hs as [-> _]; lia|].
  assert (Po : m_porta m0 = false).
  { destruct (tune_boot _ _ _ B) as [_ (_ & T)]. destruct (T c m0 Hm0) as [T1 _]. rewrite T1. exact G. }
  assert (Kl : (length (keys (m_np m0)) < 10)%nat).
  { assert (X := held_stack _ _ _ B c m0 Hm0). unfold held_on in X. rewrite map_length in X. change (held (MCallback true :: map message ops)) with (held (map message ops)) in X. lia. }
  destruct (sole_starts _ _ c n p v _ _ m0 d Hs Hc N9 Hp ltac:(lia) S On ltac:(lia) Hd Hm0 Kl Po St) as (st & E1).
  assert (Ops : d_ops d = VFm /\ d_num d = n).
  { destruct (ok_dev _ _ _ Hs Hd) as [Hdo _]. destruct Hdo as (Sh & _). destruct Sh as [S1 _]. destruct (S1 ltac:(lia)) as [S2 [S3|[_ S3]]]; [auto|]. exfalso. exact (ND n d Hd S3). }
  assert (Hs1 := step_ok _ _ _ _ Hs Om St). destruct Hs1 as [_ Hc1].
  assert (NE : cs1 <> []) by (rewrite E1; unfold start_calls; destruct (_ && _); discriminate).
  destruct (note_calls _ _ _ _ _ _ Hs Om ltac:(lia) St NE) as (i & d1 & m & _ & _ & Hok & _ & E2 & Hch & _).
  assert (NF : ~ In DFmInit cs1) by (rewrite E1; apply start_calls_plain).
  assert (V := perform_all_view r Hr _ n _ Hn _ _ _ _ _ Hdi Hg Hc1 NF Pa (cv_now_holds n (a_dev s0))). cbn [Datatypes.app] in V.
  assert (Q : exists ce, last cs1 (DChange 0 0 0 0) = DNoteOn VFm n (pitched (map message ops) c p / 100) ce v).
  { assert (B1 : boots_to (MCallback true :: map message (ops ++ [AMsg (MNoteOn c p v)])) (a_midi s) (cs ++ cs1)).
    { rewrite map_app. apply (boots_snoc (MCallback true :: map message ops) (MNoteOn c p v) _ _ _ _ B Om St). }
    destruct (note_eff ops c p v s d1 m _ Hch Hok Hp B1 L1 L2) as [F1 _].
    assert (Y1 : last cs1 (DChange 0 0 0 0) = DNoteOn (d_ops d1) (d_num d1) (pc_pitch (eff m (started m c p d1))) (pc_cents (eff m (started m c p d1))) v)
      by (rewrite E2, start_calls_split, last_last; reflexivity).
    assert (Y2 : exists q ce, last cs1 (DChange 0 0 0 0) = DNoteOn VFm n q ce v).
    { rewrite E1, start_calls_split, last_last. cbn [d_ops d_num d_set_glide]. destruct Ops as [-> ->]. eauto. }
    destruct Y2 as (q & ce & Y2). rewrite Y1 in Y2. injection Y2 as Y3 Y4 Y5 Y6. rewrite Y1, Y3, Y4, F1. eauto. }
  destruct Q as (ce & Q). rewrite E2, start_calls_split, last_last in Q. rewrite E2, start_calls_split, Q, fold_left_app in V. cbn [fold_left] in V.
  fold (noted r n (fold_left (cv_step r n) (tuneup m c p d1) (cv_now n (a_dev s0))) (pitched (map message ops) c p / 100) ce v) in V.
  rewrite noted_eq in V by (unfold DevSpec.playable; apply andb_true_intro; split; apply Z.leb_le; lia). cbv zeta in V.
  destruct (tuneup_view r n m c p d1 (cv_now n (a_dev s0))) as (_ & T2 & _).
  destruct V as (_ & _ & _ & (_ & _ & _ & V) & _). cbn [v_raw v_key cv_sv] in V. apply V. rewrite T2. reflexivity.
Qed.


Lemma fixed_history r hw mem ops s tr : history r hw mem ops s tr -> without asks_mode ops -> midi_ok (a_midi s) /\ fixed_map (assigned (map message ops)) (a_midi s).
Proof.
  intros H W. destruct (history_played _ _ _ _ _ _ H) as (_ & cs & B & _).
  apply (fixed_boot (MCallback true :: map message ops) _ cs) with (2 := B). apply Forall_forall. intros m Hin. apply (plain_messages asks_mode ops); [| |exact W|exact Hin].
  - intros [(a & b & [=])|[(a & [=])|(t & [=])]].
  - intros [(a & b & [=])|[(a & [=])|(t & [=])]].
Qed.
Theorem assigned_table r hw mem ops s tr : history r hw mem ops s tr -> without asks_mode ops -> forall i d, dev_at (a_midi s) i d -> d_midi d = assigned (map message ops) i.
Proof. intros H W. exact (proj2 (proj2 (fixed_history _ _ _ _ _ _ H W))). Qed.
Theorem assigned_none r hw mem ops c p v s0 tr0 s o : history r hw mem ops s0 tr0 -> without asks_mode ops -> 1 <= v ->
  (forall i, 0 <= i < 13 -> assigned (map message ops) i <> c) ->
  history r hw mem (ops ++ [AMsg (MNoteOn c p v)]) s (tr0 ++ o) -> o = [] /\ a_midi s = a_midi s0 /\ a_dev s = a_dev s0.
Proof.
  intros H0 W Hv No H. destruct (fixed_history _ _ _ _ _ _ H0 W) as [Hs Hf].
  destruct (history_last _ _ _ _ _ _ _ _ _ H0 H) as ((Hc & Hp & _) & cs & St & Pa).
  destruct (none_starts _ _ c p v _ _ Hs Hc Hp ltac:(lia) Hf No St) as [E ->]. cbn [perform_all] in Pa. injection Pa as E2 <-. auto.
Qed.
(** The request itself is not heard. *)
Theorem assigning_quiet r hw mem ops c k s0 tr0 s o : history r hw mem ops s0 tr0 ->
  history r hw mem (ops ++ [AMsg (own_sysex 0 [c; k])]) s (tr0 ++ o) -> o = [].
Proof.
  intros H0 H. destruct (history_last _ _ _ _ _ _ _ _ _ H0 H) as (_ & cs & St & Pa). unfold steps in St. cbn [midi_step own_sysex Datatypes.app] in St.
  rewrite remap_msg in St. apply remap_quiet in St as ->. cbn [perform_all] in Pa. injection Pa as _ <-. reflexivity.
Qed.
Theorem assigned_pitch r hw mem ops c n p v s0 tr0 : history r hw mem ops s0 tr0 -> is_chan c -> c <> 9 -> 0 <= n < 6 -> only (assigned (map message ops)) c n ->
  MidiSpec.seven p -> 1 <= v <= 127 ->
  without asks_mode ops -> without (is_cc 78) ops -> without raw_write ops -> tn_glide (tuned (map message ops)) c = false ->
  (length (filter (fun k => Z.eqb (fst k) c) (held (map message ops))) < 10)%nat ->
  let x := pitched (map message ops) c p in
  0 <= bent (map message ops) c p -> 0 <= x -> 11 <= x / 100 <= 106 ->
  exists s o, history r hw mem (ops ++ [AMsg (MNoteOn c p v)]) s (tr0 ++ o) /\ key_state o n = Some true /\
    chip_freq (tr0 ++ o) n = Some (fm_note r (x / 100) (x mod 100)).
Proof.
  intros H0 Hc N9 Hn On Hp Hv W1 W2 W3 G K x L1 L2 L3. destruct (assigned_heard r hw mem ops c n p v s0 tr0 H0 Hc N9 Hn On Hp Hv W1 W2 G K L1 L2 L3) as (s & o & H & Ke).
  exists s, o. split; [exact H|]. split; [exact Ke|]. destruct (note_pitch r hw mem ops c p v s0 s tr0 o H0 H n Hn ltac:(lia) Ke W3 L1 L2) as (_ & _ & F).
  rewrite F. replace (c =? 9) with false by lia. reflexivity.
Qed.
