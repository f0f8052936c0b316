(** A line with portamento over a history of the whole interface. *)
From Verif Require Import Base BaseLemmas PitchModel PitchSpec PitchProofs NotePriorityModel SynthModel SynthSpec SynthProofs SynthMirrorProofs SynthClaimsProofs SynthViewProofs.
From Verif Require Import MidiModel MidiSpec MidiProofs MidiOkProofs MidiEqProofs MidiEffectProofs MidiCallProofs MidiNoteProofs MidiChanProofs MidiTuneProofs MidiDevProofs MidiInvProofs MidiStaticProofs MidiPlaceProofs MidiClaimsProofs MidiGlideProofs.
From Verif Require Import PsgModel DevModel DevSpec DevProofs AppModel AppSpec AppProofs AppTraceProofs AppClaimsProofs AppViewProofs AppKeyProofs SoundSpec AppSoundProofs AppToneProofs AppNoteProofs GlideSpec GlideProofs.
From Verif Require LibraryProofs SongProofs.

(** ** What a step does to the view of an FM channel *)
Lemma step_view r (Hr : rom_ok r) n op s s' o : 0 <= n < 6 -> app_inv r s -> aop_ok op -> app_step r op s = Done tt s' o ->
  exists cs, steps (a_midi s) (message op) (a_midi s') cs /\
    forall w tr, cv_holds n w (a_dev s) tr -> cv_holds n (fold_left (cv_step r n) cs w) (a_dev s') (tr ++ o).
Proof.
  intros Hn Hi Ho E.
  assert (Hmsg : forall m t t' o', app_inv r t -> mop_ok m -> app_midi r (midi_step m) t = Done tt t' o' ->
    exists cs, steps (a_midi t) m (a_midi t') cs /\
      forall w tr, cv_holds n w (a_dev t) tr -> cv_holds n (fold_left (cv_step r n) cs w) (a_dev t') (tr ++ o')).
  { clear -Hr Hn. intros m t t' o' (H1 & H2 & H3) Hm E. unfold app_midi in E. assert (W := midi_step_ok m (a_midi t) H1 Hm).
    assert (Mn := calls_menu m (a_midi t)). unfold steps.
    destruct (midi_step m (a_midi t)) as [s1 cs|f] eqn:Em; [|discriminate]. cbn [wpw] in W. destruct W as [Hc Hs1]. specialize (Mn _ _ eq_refl).
    assert (Hni : ~ In DFmInit cs).
    { intros Hin. rewrite Forall_forall in Mn. destruct (menu_no_init _ _ (Mn _ Hin)) as [X _]. contradiction X. reflexivity. }
    destruct (perform_all r (detected t) cs (a_dev t)) as [[] d o|] eqn:Ep; [|discriminate]. injection E as <- <-. exists cs. split; [reflexivity|].
    intros w tr V. exact (perform_all_view r Hr (detected t) n cs Hn w (a_dev t) tr d o H2 H3 Hc Hni Ep V). }
  destruct op as [m|]; cbn [app_step aop_ok message] in *.
  - exact (Hmsg m s s' o Hi Ho E).
  - destruct (frame_tick r Hr s Hi) as (s1 & o1 & E1 & I1 & [CS CP] & EM). unfold bind in E. rewrite E1 in E.
    destruct (app_midi r (midi_step MTick) s1) as [[] s2 o2|] eqn:E2; [|discriminate]. injection E as <- <-.
    destruct (Hmsg MTick s1 s2 o2 I1 Logic.I E2) as (cs & S & C). rewrite EM in S. exists cs. split; [exact S|].
    intros w tr V. rewrite app_assoc. apply C.
    assert (Ed : exists x, a_dev s1 = v_set_psg (a_dev s) x).
    { unfold app_dev, lift, ps in E1. unfold lift in E1. destruct (psg_step _ _ _ _) as [u x o'|]; [|discriminate]. injection E1 as _ <- _. exists x. reflexivity. }
    destruct Ed as [x Ed]. rewrite Ed in CS |- *. destruct V as (V1 & V2 & V3 & V4 & V5).
    unfold cv_holds. repeat (split; [assumption|]). split; [|exact V5]. apply sv_fm. rewrite filter_app.
    apply (sv_run n [] (v_synth (a_dev s))); [apply Hi|constructor|exact Hn|exact CS|apply sv_fm in V4; exact V4].
Qed.

(** ** The rest of a line *)
Lemma legato_snoc rate c a op : forall l, legato_all rate c l (a ++ [op]) ->
  legato_all rate c l a /\ legato c (fold_left (line_after rate c) a l) op.
Proof.
  induction a as [|x a IH]; intros l H; cbn [Datatypes.app legato_all fold_left] in *; [split; [exact Logic.I|apply H]|].
  destruct H as [H1 H2]. destruct (IH _ H2) as [H3 H4]. auto.
Qed.
Lemma legato_plain c l op : legato c l op -> ~ remaps (message op).
Proof.
  intros L R. destruct op as [m|]; [|destruct R as [(a & b & [=])|[(a & [=])|[(a & [=])|(t & [=])]]]].
  cbn [message] in R. destruct R as [(a & b & ->)|[(a & ->)|[(a & ->)|(t & ->)]]]; cbn [legato] in L; destruct L as (e & _ & L);
    unfold note_or_setting in L; repeat match type of L with _ \/ _ => destruct L as [L|L] end;
    repeat match type of L with ex _ => destruct L as [? L] end; intuition (try discriminate);
    match goal with E : MCc _ _ _ = MCc _ _ _ |- _ => injection E as _ ? _; lia end.
Qed.
Lemma plain_remaps ops : without remaps ops -> Forall (fun m => ~ remaps m) (MCallback true :: map message ops).
Proof.
  intros W. apply Forall_forall. intros m Hin. apply (plain_messages remaps ops); [| |exact W|exact Hin];
    intros [(a & b & [=])|[(a & [=])|[(a & [=])|(t & [=])]]].
Qed.

(** What happens to the line's channel: pressed or not, and its frequency. *)
Definition carried (r : rom) (c : Z) (m m' : mchan) (d d' : dev) (s s' : app) (o : list event) : Prop :=
  forall w tr, cv_holds c w (a_dev s) tr -> exists w', cv_holds c w' (a_dev s') (tr ++ o) /\
    v_key (cv_sv w') = v_key (cv_sv w) /\ v_raw (cv_sv w') = v_raw (cv_sv w) /\
    (v_frq (cv_sv w) = tune r m d -> v_frq (cv_sv w') = tune r m' d').

Section Line.
Context (r : rom) (hw : hardware) (mem : list Z) (c : Z) (Hc : 0 <= c < 6).
Lemma line_run rate (Hrate : 1 <= rate <= 1145) before s0 tr0 l m d : history r hw mem before s0 tr0 -> without remaps before ->
  on_line c rate l (a_midi s0) m d -> forall more, legato_all rate c l more -> forall s tr, history r hw mem (before ++ more) s tr ->
  without remaps (before ++ more) /\
  exists m' d' o, tr = tr0 ++ o /\ on_line c rate (fold_left (line_after rate c) more l) (a_midi s) m' d' /\ carried r c m m' d d' s0 s o.
Proof.
  intros H0 W J. induction more as [|op more IH] using rev_ind; intros L s tr H.
  - rewrite app_nil_r in *. split; [exact W|]. exists m, d, [].
    assert (X : s = s0 /\ tr = tr0). { destruct H0 as (_ & _ & _ & E1), H as (_ & _ & _ & E2). rewrite E1 in E2. injection E2 as <- <-. auto. }
    destruct X as [-> ->]. rewrite app_nil_r. split; [reflexivity|]. split; [exact J|]. intros w tr V. exists w. rewrite app_nil_r. auto.
  - destruct (legato_snoc _ _ _ _ _ L) as [L1 L2]. rewrite app_assoc in H. apply LibraryProofs.history_prefix in H as (s1 & tr1 & o1 & H1 & Ho & E & ->).
    destruct (IH L1 _ _ H1) as (W1 & m1 & d1 & o & -> & J1 & C1). split.
    { intros x Hx. rewrite app_assoc in Hx. apply in_app_or in Hx as [Hx|[->|[]]]; [exact (W1 x Hx)|exact (legato_plain _ _ _ L2)]. }
    destruct (history_played _ _ _ _ _ _ H1) as (Hi & cs0 & B & _).
    destruct (step_view r ltac:(apply H1) c op s1 s o1 Hc Hi Ho E) as (cs & St & V).
    destruct (line_step _ _ _ _ _ _ _ _ _ _ _ (plain_remaps _ W1) B Ho Hc Hrate J1 L2 St) as (m2 & d2 & J2 & A).
    exists m2, d2, (o ++ o1). rewrite app_assoc. split; [reflexivity|]. rewrite fold_left_app. split; [exact J2|].
    intros w tr Hw. destruct (C1 w tr Hw) as (w1 & Hw1 & K1 & R1 & F1). exists (fold_left (cv_step r c) cs w1).
    rewrite app_assoc. split; [exact (V _ _ Hw1)|]. destruct (A r) as [[A1 A2]|A1]; destruct (A1 w1) as (A3 & A4 & A5 & _).
    + rewrite A3, A4, A5, A2. auto.
    + rewrite A3, A4, A5. auto.
Qed.

(** ** The first note of a line is struck *)
Lemma struck before p v s0 tr0 : history r hw mem before s0 tr0 -> 12 <= p <= 127 -> 1 <= v <= 127 ->
  without remaps before -> without (is_cc 78) before -> tn_glide (tuned (map message before)) c = true ->
  filter (fun k => Z.eqb (fst k) c) (held (map message before)) = [] ->
  0 <= bent (map message before) c p -> 0 <= pitched (map message before) c p -> 11 <= pitched (map message before) c p / 100 <= 106 ->
  exists s o m d, history r hw mem (before ++ [AMsg (MNoteOn c p v)]) s (tr0 ++ o) /\
    on_line c (speed (map message before) c) (mkLine [p] (100 * p)) (a_midi s) m d /\
    forall w tr, cv_holds c w (a_dev s0) tr -> exists w', cv_holds c w' (a_dev s) (tr ++ o) /\
      v_key (cv_sv w') = Some true /\ v_raw (cv_sv w') = v_raw (cv_sv w) /\ v_frq (cv_sv w') = tune r m d.
Proof.
  intros H0 Hp Hv W1 W2 G K L1 L2 L3. assert (H' := H0). destruct H' as (Hr & Hm & Ho & E0).
  assert (Om : mop_ok (MNoteOn c p v)) by (cbn; unfold is_chan, MidiSpec.seven in *; lia).
  assert (Hp7 : MidiSpec.seven p) by (unfold MidiSpec.seven; lia).
  destruct (history_played _ _ _ _ _ _ H0) as (Hi & cs & B & P). assert (Hi' := Hi). destruct Hi' as (Hs & Hdi & Hg).
  assert (ND : forall j d, dev_at (a_midi s0) j d -> no_dac d).
  { apply (no_dac_boot _ _ _ B). apply Forall_forall. intros m Hin. exact (plain_messages (is_cc 78) before (proj1 (cc_plain 78)) (proj2 (cc_plain 78)) W2 m Hin). }
  assert (S : static_map (a_midi s0)) by exact (proj2 (static_boot _ _ _ (plain_remaps _ W1) B)).
  destruct (app_step_ok r Hr (AMsg (MNoteOn c p v)) s0 Hi Om) as [(s & o & so & po & E & _)|[[_ (s' & o & E & X)]|[_ X]]].
  2:{ exfalso. revert X. apply (no_dac_samples (MNoteOn c p v) (a_midi s0) s' o ND Om); [intros (x & y & [=])|exact Hs|exact E]. }
  2:{ destruct X as (x & [=] & _). }
  assert (H := history_snoc _ _ _ _ (AMsg (MNoteOn c p v)) _ _ _ _ H0 Om E).
  destruct (step_view r Hr c (AMsg (MNoteOn c p v)) _ _ _ Hc Hi Om E) as (cs1 & St & V). cbn [message] in St.
  destruct (ok_ch_get (a_midi s0) c Hs ltac:(unfold is_chan; lia)) as (m0 & Hm0 & Hok0).
  destruct (zget_in_range (md_dev (a_midi s0)) c) as [d Hd]; [destruct Hs as [-> _]; lia|].
  assert (Po : m_porta m0 = true).
  { destruct (tune_boot _ _ _ B) as [_ (_ & T)]. destruct (T c m0 Hm0) as [T1 _]. rewrite T1. exact G. }
  assert (Kl : keys (m_np m0) = []).
  { assert (X := held_stack _ _ _ B c m0 Hm0). unfold held_on in X. rewrite map_length in X. change (held (MCallback true :: map message before)) with (held (map message before)) in X.
    rewrite K in X. destruct (keys (m_np m0)); [reflexivity|cbn in X; lia]. }
  assert (Ops : d_ops d = VFm /\ d_num d = c).
  { destruct (ok_dev _ _ _ Hs Hd) as [Hdo _]. destruct Hdo as (Sh & _). destruct Sh as [S1 _]. destruct (S1 ltac:(lia)) as [S2 [S3|[_ S3]]]; [auto|]. exfalso. exact (ND c d Hd S3). }
  assert (Sp := speed_boot _ _ _ B c m0 Hm0). change (speed (MCallback true :: map message before) c) with (speed (map message before) c) in Sp.
  assert (R : exists st, keys st = [p] /\ a_midi s = md_set_dev (md_set_ch (a_midi s0) (zset (md_ch (a_midi s0)) c (m_set_vel (m_set_np m0 st) v)))
         (zset (md_dev (a_midi s0)) c (started (m_set_vel (m_set_np m0 st) v) c p (d_set_glide d 0))) /\
         cs1 = start_calls (m_set_vel (m_set_np m0 st) v) c p v (d_set_glide d 0)).
  { assert (St' := St). unfold steps in St'; cbn [midi_step] in St'.
    destruct (midi_note_on_eq c p v (a_midi s0) m0 Hs ltac:(unfold is_chan; lia) Hp7 ltac:(lia) Hm0) as (s2 & o2 & E2 & R). rewrite St' in E2. injection E2 as E2 E3.
    rewrite E2, E3. clear E2 E3 St'.
    destruct R as [[Ht|[Ht|[_ Ht]]]|i e st Ht Ci He _ _ Ek _ Hk|i e st Ht Ci He _ _ Ek _|i e Ht Ci He Hvc].
    - exfalso. unfold tooManyPercussiveNotes, PERCUSSION in Ht. destruct (Z.eqb_spec c 9); [lia|]. discriminate.
    - exfalso. unfold MidiEqProofs.chosen in Ht. destruct (device_min_max (m_sel m0)) as [lo hi]. destruct S as [S1 S2]. rewrite S1 in Ht.
      destruct (first_dev _ _ _) in Ht; [discriminate|]. cbn [orelse] in Ht. unfold by_midi in Ht.
      assert (X := first_dev_none _ _ _ _ c d Ht ltac:(lia) Hd). cbv beta in X. rewrite (S2 c d Hd) in X. lia.
    - rewrite Kl in Ht. discriminate Ht.
    - rewrite Kl in Hk. contradiction Hk. reflexivity.
    - destruct (static_chosen _ m0 c i e S Ci He) as [-> _]. unfold dev_at in Hd. rewrite Hd in He. injection He as <-. exists st. rewrite Kl in Ek. auto.
    - exfalso. apply Hvc. exact (static_single _ c Hs S ltac:(lia)). }
  destruct R as (st & Ks & Es & Ec). set (m := m_set_vel (m_set_np m0 st) v) in *. set (d0 := d_set_glide d 0) in *.
  assert (Hch : ch_at (a_midi s) c m) by (rewrite Es; unfold ch_at; cbn [md_ch md_set_dev md_set_ch]; apply zget_zset_same; eapply zget_Some; exact Hm0).
  assert (Hd1 : dev_at (a_midi s) c (started m c p d0)) by (rewrite Es; unfold dev_at; cbn [md_dev md_set_dev]; apply zget_zset_same; eapply zget_Some; exact Hd).
  exists s, o, m, (started m c p d0). split; [exact H|].
  destruct (step_ok _ _ _ _ Hs Om St) as [Hs1 _]. destruct (ok_ch _ _ _ Hs1 Hch) as [Hok _].
  assert (B1 : boots_to (MCallback true :: map message (before ++ [AMsg (MNoteOn c p v)])) (a_midi s) (cs ++ cs1)).
  { rewrite map_app. apply (boots_snoc (MCallback true :: map message before) (MNoteOn c p v) _ _ _ _ B Om St). }
  destruct (note_eff before c p v s d0 m _ Hch Hok Hp7 B1 L1 L2) as [F1 _]. split.
  - split; [|split; [|split; [unfold position; cbn; lia|right; split; [reflexivity|reflexivity]]]].
    + split; [exact Hd1|]. split; [exact Hch|]. destruct Ops. repeat (split; [assumption || reflexivity|]). reflexivity.
    + cbn [l_keys]. split; [exact Po|]. split; [exact Sp|]. split; [exact Ks|]. split; [discriminate|]. repeat constructor; lia.
  - intros w tr Hw. eexists. split; [exact (V w tr Hw)|]. rewrite Ec, start_calls_split, fold_left_app. cbn [fold_left].
    change (d_ops d0) with (d_ops d). change (d_num d0) with (d_num d). destruct Ops as [-> Nm]. rewrite Nm.
    destruct (tuneup_view r c m c p d0 w) as (_ & T2 & T3). specialize (T3 Nm).
    set (w1 := fold_left (cv_step r c) (tuneup m c p d0) w) in *.
    fold (noted r c w1 (pc_pitch (eff m (started m c p d0))) (pc_cents (eff m (started m c p d0))) v).
    rewrite noted_eq by (rewrite F1; unfold DevSpec.playable; apply andb_true_intro; split; apply Z.leb_le; lia). cbv zeta.
    rewrite T3. destruct (Z.eqb_spec c 9); [lia|]. cbn [cv_sv v_key v_raw v_frq]. split; [reflexivity|]. split; [exact T2|reflexivity].
Qed.

(** The pitch of the line at the chip. *)
Lemma line_tune ops s cs rate l m d : boots_to (MCallback true :: map message ops) (a_midi s) cs -> on_line c rate l (a_midi s) m d ->
  let x := line_pitch (map message ops) c (l_at l) in
  0 <= line_bent (map message ops) c (l_at l) < 25600 -> 0 <= x < 25600 -> tune r m d = Some (fm_note r (x / 100) (x mod 100)).
Proof.
  cbv zeta. intros B ((Hd & Hm & _ & _ & _ & _ & Be) & _ & Pos & _) L1 L2. assert (Hs := boots_ok _ _ _ B). destruct (ok_ch _ _ _ Hs Hm) as [Hok _].
  destruct (settings_boot _ _ _ B) as [_ S]. destruct (S c m Hm) as (_ & _ & _ & S4 & S5 & S6 & _). rewrite settings_messages in S4, S5, S6.
  destruct (tune_boot _ _ _ B) as [_ (_ & T)]. destruct (T c m Hm) as [_ T2].
  change (tn_fine (tuned (MCallback true :: map message ops)) c) with (tn_fine (tuned (map message ops)) c) in T2.
  destruct Hok as (_ & _ & _ & _ & Hb & R1 & R2 & _).
  assert (Q := eff_total m d). cbv zeta in Q. unfold line_pitch, line_bent in *. unfold position in Pos.
  rewrite Be, S4, S5, S6, T2, Pos in Q. destruct Q as [Q1 Q2]; [rewrite <- S4; exact Hb|rewrite <- S5; exact R1|rewrite <- S6; exact R2|assumption|assumption|].
  unfold tune. rewrite Q1, Q2, octave_key. reflexivity.
Qed.
Lemma bent_line ms p : bent ms c p = line_bent ms c (100 * p).
Proof. reflexivity. Qed.

Lemma legato_without rate (P : mop -> Prop) : (forall b k v, ~ P (MNoteOn b k v)) -> (forall b k, ~ P (MNoteOff b k)) -> (forall b k, ~ P (MBend b k)) ->
  (forall a m, note_or_setting a m -> ~ P m) -> forall more l, legato_all rate c l more -> without P more.
Proof.
  intros P1 P2 P3 P4. induction more as [|op more IH]; intros l L m Hin; [destruct Hin|]. destruct L as [L1 L2]. destruct Hin as [->|Hin]; [|exact (IH _ L2 m Hin)].
  destruct m; cbn [legato] in L1; try (destruct L1 as (a & _ & L1); exact (P4 a _ L1)); auto.
Qed.
Lemma legato_cc78 rate l more : legato_all rate c l more -> without (is_cc 78) more.
Proof.
  apply legato_without; unfold is_cc; try (intros; intros (x & y & [=]); fail).
  intros a m N (x & y & ->). unfold note_or_setting in N. repeat match type of N with _ \/ _ => destruct N as [N|N] end;
    repeat match type of N with ex _ => destruct N as [? N] end; intuition (try discriminate); match goal with E : MCc _ _ _ = MCc _ _ _ |- _ => injection E as _ ? _; lia end.
Qed.
Lemma legato_envelope rate l more : legato_all rate c l more -> without odd_envelope more.
Proof.
  apply legato_without; unfold odd_envelope; try (intros; intros (x & [=] & _); fail).
  intros a m N (x & -> & _). unfold note_or_setting in N. repeat match type of N with _ \/ _ => destruct N as [N|N] end;
    repeat match type of N with ex _ => destruct N as [? N] end; intuition discriminate.
Qed.

Theorem line_sounds before p v more : rom_ok r -> mem_ok mem -> Forall aop_ok (before ++ AMsg (MNoteOn c p v) :: more) ->
  12 <= p -> 1 <= v ->
  without raw_write before -> without remaps before -> without (is_cc 78) before -> without odd_envelope before ->
  tn_glide (tuned (map message before)) c = true ->
  filter (fun k => Z.eqb (fst k) c) (held (map message before)) = [] ->
  0 <= bent (map message before) c p -> 0 <= pitched (map message before) c p -> 11 <= pitched (map message before) c p / 100 <= 106 ->
  let rate := speed (map message before) c in
  legato_all rate c (mkLine [p] (100 * p)) more ->
  let all := before ++ AMsg (MNoteOn c p v) :: more in
  exists s0 tr0 s1 o1 s o m d m' d', history r hw mem before s0 tr0 /\ history r hw mem (before ++ [AMsg (MNoteOn c p v)]) s1 (tr0 ++ o1) /\ key_state o1 c = Some true /\
    history r hw mem all s (tr0 ++ o1 ++ o) /\ without remaps all /\ without (is_cc 78) all /\ on_line c rate (line_played rate c p more) (a_midi s) m' d' /\
    (forall w tr, cv_holds c w (a_dev s0) tr -> exists w', cv_holds c w' (a_dev s1) (tr ++ o1) /\
      v_key (cv_sv w') = Some true /\ v_raw (cv_sv w') = v_raw (cv_sv w) /\ v_frq (cv_sv w') = tune r m d) /\
    carried r c m m' d d' s1 s o.
Proof.
  intros Hr Hm Ho Hp Hv W1 W2 W3 W4 G K L1 L2 L3 rate Lg all.
  assert (Hv' : p <= 127 /\ v <= 127).
  { apply Forall_app in Ho as [_ Ho]. apply Forall_inv in Ho. destruct Ho as (_ & A & B). unfold MidiSpec.seven in *. lia. }
  destruct (history_dacless r hw mem before Hr Hm) as (s0 & tr0 & H0); [apply Forall_app in Ho; apply Ho|assumption|assumption|].
  destruct (struck before p v s0 tr0 H0 ltac:(lia) ltac:(lia) W2 W3 G K L1 L2 L3) as (s1 & o1 & m & d & H1 & J & V).
  assert (Wall : without remaps (before ++ [AMsg (MNoteOn c p v)])).
  { intros y Hy. apply in_app_or in Hy as [Hy|[[= <-]|[]]]; [exact (W2 y Hy)|]. intros [(a & b & [=])|[(a & [=])|[(a & [=])|(t & [=])]]]. }
  assert (Eall : all = (before ++ [AMsg (MNoteOn c p v)]) ++ more) by (unfold all; rewrite <- app_assoc; reflexivity).
  assert (Mid : forall P, (forall b k v, ~ P (MNoteOn b k v)) -> without P before -> without P more -> without P all).
  { intros P P1 Wb Wm y Hy. apply in_app_or in Hy as [Hy|[[= <-]|Hy]]; [exact (Wb y Hy)|apply P1|exact (Wm y Hy)]. }
  assert (Dac : without (is_cc 78) all).
  { apply Mid; [unfold is_cc; intros ? ? ? (? & ? & [=])|assumption|eapply legato_cc78; exact Lg]. }
  destruct (history_dacless r hw mem all Hr Hm Ho Dac) as (s & tr & H).
  { apply Mid; [unfold odd_envelope; intros ? ? ? (? & [=] & _)|assumption|eapply legato_envelope; exact Lg]. }
  rewrite Eall in H.
  assert (Hrate : 1 <= rate <= 1145).
  { destruct J as ((_ & Hm1 & _) & (_ & I & _) & _). destruct (history_played _ _ _ _ _ _ H1) as ((Hs & _) & _).
    destruct (ok_ch _ _ _ Hs Hm1) as [Hok _]. destruct Hok as (_ & _ & _ & _ & _ & _ & _ & _ & _ & _ & R & _). unfold rate. lia. }
  destruct (line_run rate Hrate _ _ _ _ _ _ H1 Wall J more Lg s tr H) as (Wa & m' & d' & o & -> & J' & C).
  exists s0, tr0, s1, o1, s, o, m, d, m', d'. split; [exact H0|]. split; [exact H1|].
  destruct (V _ [] (cv_now_holds c (a_dev s0))) as (w1 & (_ & _ & _ & (_ & _ & _ & K1) & _) & V1 & V2 & _).
  destruct (K1 ltac:(rewrite V2; reflexivity)) as [K2 _]. split; [rewrite <- V1; exact K2|].
  rewrite <- Eall, <- app_assoc in H. split; [exact H|].
  split; [rewrite Eall; exact Wa|]. split; [exact Dac|]. split; [exact J'|]. split; [exact V|exact C].
Qed.

Theorem glides_heard before p v more : rom_ok r -> mem_ok mem -> Forall aop_ok (before ++ AMsg (MNoteOn c p v) :: more) ->
  12 <= p -> 1 <= v ->
  without raw_write before -> without remaps before -> without (is_cc 78) before -> without odd_envelope before ->
  tn_glide (tuned (map message before)) c = true ->
  filter (fun k => Z.eqb (fst k) c) (held (map message before)) = [] ->
  0 <= bent (map message before) c p -> 0 <= pitched (map message before) c p -> 11 <= pitched (map message before) c p / 100 <= 106 ->
  let rate := speed (map message before) c in
  legato_all rate c (mkLine [p] (100 * p)) more ->
  let all := before ++ AMsg (MNoteOn c p v) :: more in
  let at_ := l_at (line_played rate c p more) in
  let x := line_pitch (map message all) c at_ in
  0 <= line_bent (map message all) c at_ < 25600 -> 0 <= x < 25600 ->
  exists s0 tr0 s1 o1 s o, history r hw mem before s0 tr0 /\ history r hw mem (before ++ [AMsg (MNoteOn c p v)]) s1 (tr0 ++ o1) /\ key_state o1 c = Some true /\
    history r hw mem all s (tr0 ++ o1 ++ o) /\ key_state o c = None /\ chip_freq (tr0 ++ o1 ++ o) c = Some (fm_note r (x / 100) (x mod 100)).
Proof.
  intros Hr Hm Ho Hp Hv W1 W2 W3 W4 G K L1 L2 L3 rate Lg all at_ x X1 X2.
  destruct (line_sounds before p v more Hr Hm Ho Hp Hv W1 W2 W3 W4 G K L1 L2 L3 Lg) as (s0 & tr0 & s1 & o1 & s & o & m & d & m' & d' & H0 & H1 & K2 & H & _ & _ & J' & V & C).
  exists s0, tr0, s1, o1, s, o. split; [exact H0|]. split; [exact H1|]. split; [exact K2|]. split; [exact H|].
  destruct (C _ [] (cv_now_holds c (a_dev s1))) as (w2 & (_ & _ & _ & (_ & _ & _ & K3) & _) & V3 & V4 & _).
  destruct (K3 ltac:(rewrite V4; reflexivity)) as [K4 _]. split; [cbn [Datatypes.app] in K4; rewrite K4, V3; reflexivity|].
  destruct (history_played _ _ _ _ _ _ H0) as (_ & cs & B & P).
  assert (P0 := played_view r Hr mem Hm c cs _ _ Hc P (boots_calls_ok _ _ _ B)).
  destruct (V _ _ P0) as (w3 & Hw3 & _ & R3 & F3). destruct (C _ _ Hw3) as (w4 & (_ & _ & _ & (_ & _ & _ & K5) & _) & _ & R4 & F4).
  destruct K5 as [_ K5]. { rewrite R4, R3. exact (cv_raw_free_all r c _ (cv0 r) (history_not_raw _ _ _ B W1) eq_refl). }
  rewrite <- app_assoc in K5. rewrite K5, (F4 F3). destruct (history_played _ _ _ _ _ _ H) as (_ & cs' & B' & _).
  exact (line_tune all s cs' rate _ m' d' B' J' X1 X2).
Qed.

(** ** Letting go of the last key *)
Lemma line_ends rate l s m d s' cs : midi_ok s -> static_map s -> released (newest l) (l_keys l) = [] -> on_line c rate l s m d ->
  steps s (MNoteOff c (newest l)) s' cs -> forall w,
  v_key (cv_sv (fold_left (cv_step r c) cs w)) = Some false /\ v_raw (cv_sv (fold_left (cv_step r c) cs w)) = v_raw (cv_sv w).
Proof.
  intros Hs Hst Hrl J St w. assert (Sv := line_serves _ _ _ _ _ _ Hs J). destruct J as ((Hd & Hm & Ops & Num & Mid & On & Be) & (Po & In_ & Ke & Ne & Fo) & Pos & Gl).
  assert (Hci : is_chan c) by (unfold is_chan; lia). unfold steps in St; cbn [midi_step] in St.
  destruct (note_off_effect c (newest l) s s' cs m Hs Hci Hm St) as (_ & Ec & _). set (k := newest l) in *.
  assert (Fb : falls_back s m c k = false).
  { unfold falls_back, off_next, off_stack. rewrite Ke. fold (released k (l_keys l)). rewrite Hrl. cbn [last]. apply andb_false_r. }
  destruct (flat_split s c d (note_off_calls s m c k) r (numbered_ok _ Hs) Hd) as (a & b & E & Sa & Sb).
  { intros e x Hx. unfold note_off_calls in Hx. rewrite Fb in Hx. unfold off_calls in Hx. destruct (serves_note c k e); [|destruct Hx].
    destruct Hx as [<-|[]]. reflexivity. }
  rewrite Ec, E. unfold note_off_calls. rewrite Fb. unfold off_calls. rewrite Sv, Ops, Num, !fold_left_app.
  destruct (Sa w) as (A1 & _ & A3 & _). set (w1 := fold_left (cv_step r c) a w) in *.
  destruct (Sb (fold_left (cv_step r c) [DNoteOff VFm c k] w1)) as (B1 & _ & B3 & _). rewrite B1, B3, <- A3.
  cbn [fold_left cv_step cv_sops cv_sv sv_step]. rewrite Z.eqb_refl. split; reflexivity.
Qed.

Theorem glide_ends before p v more : rom_ok r -> mem_ok mem -> Forall aop_ok (before ++ AMsg (MNoteOn c p v) :: more) ->
  12 <= p -> 1 <= v ->
  without raw_write before -> without remaps before -> without (is_cc 78) before -> without odd_envelope before ->
  tn_glide (tuned (map message before)) c = true ->
  filter (fun k => Z.eqb (fst k) c) (held (map message before)) = [] ->
  0 <= bent (map message before) c p -> 0 <= pitched (map message before) c p -> 11 <= pitched (map message before) c p / 100 <= 106 ->
  let rate := speed (map message before) c in
  legato_all rate c (mkLine [p] (100 * p)) more ->
  let all := before ++ AMsg (MNoteOn c p v) :: more in
  let l := line_played rate c p more in
  released (newest l) (l_keys l) = [] ->
  exists s tr s' o, history r hw mem all s tr /\ history r hw mem (all ++ [AMsg (MNoteOff c (newest l))]) s' (tr ++ o) /\ key_state o c = Some false.
Proof.
  intros Hr Hm Ho Hp Hv W1 W2 W3 W4 G K L1 L2 L3 rate Lg all l Rl.
  destruct (line_sounds before p v more Hr Hm Ho Hp Hv W1 W2 W3 W4 G K L1 L2 L3 Lg) as (s0 & tr0 & s1 & o1 & s & o & m & d & m' & d' & _ & _ & _ & H & Wa & Dac & J & _).
  exists s, (tr0 ++ o1 ++ o). fold rate l all in J, H, Wa. assert (Nk := newest_key _ _ _ _ _ _ J).
  assert (Om : mop_ok (MNoteOff c (newest l))) by (cbn; unfold is_chan, MidiSpec.seven; lia).
  destruct (history_played _ _ _ _ _ _ H) as (Hi & cs & B & P). assert (Hs : midi_ok (a_midi s)) by apply Hi.
  destruct (static_boot _ _ _ (plain_remaps _ Wa) B) as [_ S].
  destruct (app_step_ok r Hr (AMsg (MNoteOff c (newest l))) s Hi Om) as [(s' & o' & so & po & E & _)|[[_ (s' & o' & E & X)]|[_ X]]].
  2:{ exfalso. revert X. apply (no_dac_samples (MNoteOff c (newest l)) (a_midi s) s' o'); [|exact Om|intros (x & y & [=])|exact Hs|exact E].
    apply (no_dac_boot _ _ _ B). apply Forall_forall. intros x Hin. exact (plain_messages (is_cc 78) all (proj1 (cc_plain 78)) (proj2 (cc_plain 78)) Dac x Hin). }
  2:{ destruct X as (x & [=] & _). }
  exists s', o'. split; [exact H|]. split; [exact (history_snoc _ _ _ _ (AMsg (MNoteOff c (newest l))) _ _ _ _ H Om E)|].
  destruct (step_view r Hr c (AMsg (MNoteOff c (newest l))) _ _ _ Hc Hi Om E) as (cs1 & St & V). cbn [message] in St.
  destruct (line_ends _ _ _ _ _ _ _ Hs S Rl J St (cv_now c (a_dev s))) as [A1 A2].
  destruct (V _ [] (cv_now_holds c (a_dev s))) as (_ & _ & _ & (_ & _ & _ & K1) & _). destruct (K1 A2) as [K2 _]. rewrite <- A1. exact K2.
Qed.
End Line.

(** ** Frames bring a line to its newest key *)
Lemma frames_keys rate c n : forall l, l_keys (fold_left (line_after rate c) (repeat AFrame n) l) = l_keys l.
Proof. induction n as [|n IH]; intros l; [reflexivity|]. cbn [repeat fold_left]. rewrite IH. reflexivity. Qed.
Lemma frames_arrive rate c n : 1 <= rate -> forall l, Z.abs (100 * newest l - l_at l) <= rate * Z.of_nat n ->
  l_at (fold_left (line_after rate c) (repeat AFrame n) l) = 100 * newest l.
Proof.
  intros Hr. induction n as [|n IH]; intros l D; cbn [repeat fold_left].
  - cbn [Z.of_nat] in D. lia.
  - rewrite IH; [reflexivity|]. unfold newest. cbn [line_after l_keys l_at]. fold (newest l). unfold moved.
    destruct (Z.ltb_spec (l_at l) (100 * newest l)); [lia|]. destruct (Z.ltb_spec (l_at l - rate) (100 * newest l + 100)); lia.
Qed.
Theorem line_arrives rate c p more n : 1 <= rate -> let l := line_played rate c p more in
  Z.abs (100 * newest l - l_at l) <= rate * Z.of_nat n -> line_played rate c p (more ++ repeat AFrame n) = mkLine (l_keys l) (100 * newest l).
Proof.
  intros Hr. cbv zeta. intros D. unfold line_played. rewrite fold_left_app. fold (line_played rate c p more). set (l := line_played rate c p more) in *.
  assert (A := frames_arrive rate c n Hr l D). assert (K := frames_keys rate c n l).
  destruct (fold_left (line_after rate c) (repeat AFrame n) l) as [ks a]. cbn in A, K. rewrite A, K. reflexivity.
Qed.
