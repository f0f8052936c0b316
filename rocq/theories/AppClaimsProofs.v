(** Properties of the chip layers hold of every history of the interface. *)
From Verif Require Import Base BaseLemmas SynthModel SynthSpec SynthProofs SynthMirrorProofs SynthClaimsProofs SramModel PsgModel MidiModel.
From Verif Require Import DevModel DevSpec DevProofs AppModel AppSpec AppProofs AppTraceProofs.
From Verif Require PsgSpec PsgRunProofs PsgClaimsProofs SramSpec SramProofs MidiSpec MidiProofs MidiOkProofs MidiEffectProofs MidiCallProofs.

Lemma in_message m ops : In m (map message ops) -> In (AMsg m) ops \/ m = MTick.
Proof.
  intros H. apply in_map_iff in H as (x & <- & H). destruct x as [m|]; [left; exact H|right; reflexivity].
Qed.
(** The calls the chips got in a history, and the messages they stem from. *)
Lemma history_calls r hw mem ops s tr : history r hw mem ops s tr ->
  app_inv r s /\ exists so po, synth_run (SInit (preset0 r) :: so) synth0 = Done tt (v_synth (a_dev s)) (filter fm_event tr) /\
    psg_run (rom_pal r) (rom_envs r) (PReset :: po) psg0 = Done tt (v_psg (a_dev s)) (filter psg_event tr) /\
    Forall sop_ok so /\ Forall PsgSpec.pop_ok po /\
    (forall x, In x so -> (exists b, x = SCallback b) \/ exists si c, In x (synth_calls r si c) /\
       (MidiCallProofs.voice_call c \/ exists m, In (AMsg m) ops /\ MidiCallProofs.menu m c)) /\
    (forall x, In x po -> x = PTick \/ exists c, In x (psg_calls c) /\
       (MidiCallProofs.voice_call c \/ exists m, In (AMsg m) ops /\ MidiCallProofs.menu m c)).
Proof.
  intros H. assert (H' := H). destruct H' as (Hr & Hm & _). destruct (history_played _ _ _ _ _ _ H) as (Hi & cs & B & P).
  split; [exact Hi|]. assert (Hc := boots_calls_ok _ _ _ B). destruct (played_ok r Hr mem _ _ _ Hm P Hc) as (_ & _ & so & po & E1 & E2 & S1 & S2 & R1 & R2).
  assert (X : forall c, In c (skipn 4 cs) -> c = DSmReset \/ MidiCallProofs.voice_call c \/ exists m, In (AMsg m) ops /\ MidiCallProofs.menu m c).
  { intros c Hin. destruct (boots_menu _ _ _ B c Hin) as [[V|V]|(m & [<-|Hx] & M)]; auto; [destruct M|].
    apply in_message in Hx as [Hx| ->]; [right; right; eauto|right; left; exact M]. }
  exists so, po. repeat (split; [assumption|]). split.
  - intros x Hx. destruct (R1 x Hx) as [?|(si & c & Hin & _ & Hc')]; [auto|]. right. exists si, c. split; [exact Hc'|].
    destruct (X c Hin) as [->|?]; [destruct Hc'|assumption].
  - intros x Hx. destruct (R2 x Hx) as [?|(c & Hin & Hc')]; [auto|]. right. exists c. split; [exact Hc'|].
    destruct (X c Hin) as [->|?]; [destruct Hc'|assumption].
Qed.

Lemma preset0_ok r : rom_ok r -> preset_ok (preset0 r).
Proof. intros (HL & HP & _). apply (Forall_zget _ _ 0 _ HP). apply zget_nth. rewrite HL. lia. Qed.

Lemma voice_no_direct r si c p g d : MidiCallProofs.voice_call c -> In (SDirect p g d) (synth_calls r si c) -> False.
Proof.
  destruct c as [v n x ce vel|v n x|v n x|v n x|v n|v n x|v n x ce|n b|op|e|prog q|prog|n prog|prog|mc n|data| | | | | |k mc key v|mc b];
    cbn; try contradiction; intros _; try destruct v; cbn; try (intros H; repeat destruct H as [H|H]; discriminate || contradiction).
  destruct (playable x); cbn; [|contradiction]. intros H. destruct (f_perc _); cbn in H; repeat destruct H as [H|H]; discriminate || contradiction.
Qed.
Lemma menu_direct r si m c p g d : MidiCallProofs.menu m c -> In (SDirect p g d) (synth_calls r si c) -> raw_write m.
Proof.
  intros M H. destruct m as [? ? ?|? ?|? ? ?|? ?|? ?|data| | |b]; cbn [MidiCallProofs.menu] in M;
    try (exfalso; exact (voice_no_direct _ _ _ _ _ _ M H)).
  - exfalso. destruct M as [M|[(t & a & b & d' & ->)|[(a & b & ->)|[(_ & n & q & ->)|[(o & -> & So & _)|[(_ & b & ->)|(_ & b & ->)]]]]]]; cbn in H;
      try contradiction; [exact (voice_no_direct _ _ _ _ _ _ M H)|..]; destruct H as [H|H]; try contradiction; subst; discriminate || contradiction.
  - exfalso. destruct M as [M|(t & a & b & d' & ->)]; [exact (voice_no_direct _ _ _ _ _ _ M H)|contradiction].
  - destruct M as [[_ M]|[(_ & l & ->)|[(_ & l & ->)|[(K & _)|[(_ & n & q & ->)|[(_ & n & ->)|[(_ & n & ->)|(_ & a & n & ->)]]]]]]]; try contradiction.
    + exfalso. exact (voice_no_direct _ _ _ _ _ _ M H).
    + exact K.
  - exfalso. destruct M as [M|[->|[->| ->]]]; [exact (voice_no_direct _ _ _ _ _ _ M H)|..]; cbn in H; try contradiction. destruct H as [H|H]; [discriminate|contradiction].
  - destruct M.
Qed.
Lemma history_raw r hw mem ops s tr : history r hw mem ops s tr -> without raw_write ops ->
  exists so, synth_run (SInit (preset0 r) :: so) synth0 = Done tt (v_synth (a_dev s)) (filter fm_event tr) /\
    Forall sop_ok so /\ Forall no_raw_clash so.
Proof.
  intros H W. destruct (history_calls _ _ _ _ _ _ H) as (_ & so & po & E & _ & S & _ & R & _). exists so. split; [exact E|]. split; [exact S|].
  apply Forall_forall. intros x Hx. destruct x; try exact I. exfalso.
  destruct (R _ Hx) as [(b & [=])|(si & c & Hin & [V|(m & Hm & M)])]; [exact (voice_no_direct _ _ _ _ _ _ V Hin)|].
  exact (W _ Hm (menu_direct _ _ _ _ _ _ _ M Hin)).
Qed.

Theorem c13_app r hw mem ops s tr : history r hw mem ops s tr -> without raw_write ops ->
  global_mirrored (ym_regs tr) (v_synth (a_dev s)) /\
  forall c, is_ch c -> exists ch, zget (s_chans (v_synth (a_dev s))) c = Some ch /\ chan_mirrored (ym_regs tr) c ch /\
    ((c_oct ch = 0 /\ c_freq ch = 0) \/ chip_freq tr c = Some (c_oct ch, c_freq ch)).
Proof.
  intros H W. destruct (history_raw _ _ _ _ _ _ H W) as (so & E & S & N). assert (P := preset0_ok r (proj1 H)).
  destruct (c13_parameters _ _ _ _ P S N E) as [G C]. rewrite <- regs_fm in G, C. split; [exact G|].
  intros c Hc. destruct (C c Hc) as (ch & Z1 & M). exists ch. split; [exact Z1|]. split; [exact M|].
  rewrite freq_fm. exact (c13_pitch _ _ _ _ P S N E c ch Z1 Hc).
Qed.
Theorem c16_app r hw mem ops s tr : history r hw mem ops s tr ->
  bus_safe tr /\ bus_after tr = negb (s_dac (v_synth (a_dev s))) /\ (s_dac (v_synth (a_dev s)) = true -> latched tr = Some 0x2A).
Proof.
  intros H. destruct (history_calls _ _ _ _ _ _ H) as (_ & so & po & E & _ & S & _).
  destruct (c16_bus _ _ _ _ (preset0_ok r (proj1 H)) S E) as (B1 & B2 & B3).
  split; [exact (bus_safe_fm _ B1)|]. rewrite bus_fm, latched_fm. auto.
Qed.

Lemma menu_reset m c : MidiCallProofs.menu m c -> In PReset (psg_calls c) -> m = MReset.
Proof.
  assert (V : MidiCallProofs.voice_call c -> In PReset (psg_calls c) -> False).
  { destruct c as [v n x ce vel|v n x|v n x|v n x|v n|v n x|v n x ce|n b|op|e|prog q|prog|n prog|prog|mc n|data| | | | | |k mc key v|mc b];
      cbn; try contradiction; intros _; try destruct v; cbn; intros H; repeat destruct H as [H|H]; discriminate || contradiction. }
  intros M H. destruct m as [? ? ?|? ?|? ? ?|? ?|? ?|data| | |b]; cbn [MidiCallProofs.menu] in M; try reflexivity; exfalso; try (exact (V M H)).
  - destruct M as [M|[(t & a & b & d' & ->)|[(a & b & ->)|[(_ & n & q & ->)|[(o & -> & So & _)|[(_ & b & ->)|(_ & b & ->)]]]]]]; try contradiction. exact (V M H).
  - destruct M as [M|(t & a & b & d' & ->)]; [exact (V M H)|contradiction].
  - destruct M as [[_ M]|[(_ & l & ->)|[(_ & l & ->)|[(_ & a & b & d & ->)|[(_ & n & q & ->)|[(_ & n & ->)|[(_ & n & ->)|(_ & a & n & ->)]]]]]]]; try contradiction; [exact (V M H)|].
    destruct H as [H|H]; [discriminate|contradiction].
  - destruct M.
Qed.
Lemma voice_no_reset c : MidiCallProofs.voice_call c -> ~ In PReset (psg_calls c).
Proof. intros V H. assert (X := menu_reset MTick c V H). discriminate. Qed.
Theorem c27_app r hw mem ops s tr : history r hw mem ops s tr -> without resets ops -> forall c, PsgSpec.is_psg c ->
  exists ch, zget (ps_chans (v_psg (a_dev s))) c = Some ch /\
    PsgSpec.chip_att PsgSpec.att_at_boot tr c = g_att ch /\ PsgSpec.chip_tone PsgSpec.tone_at_boot tr c = g_freq ch /\
    0 <= PsgSpec.chip_att PsgSpec.att_at_boot tr c <= 15 /\ 0 <= PsgSpec.chip_tone PsgSpec.tone_at_boot tr c < 1024 /\
    (g_on ch = false -> PsgSpec.chip_att PsgSpec.att_at_boot tr c = 15).
Proof.
  intros H W c Hc. destruct (history_calls _ _ _ _ _ _ H) as (_ & so & po & _ & E & _ & S & _ & R).
  assert (N : ~ In PReset po).
  { intros X. destruct (R _ X) as [[=]|(k & Hin & [V|(m & Hm & M)])]; [exact (voice_no_reset _ V Hin)|].
    exact (W _ Hm (menu_reset _ _ M Hin)). }
  assert (He : PsgSpec.envs_ok (rom_envs r)) by (destruct H as ((_ & _ & _ & _ & He & _) & _); exact He).
  rewrite !(att_psg _ tr), !(tone_psg _ tr). exact (PsgClaimsProofs.c27 (rom_pal r) _ He po c _ _ S N Hc E).
Qed.

(** ** Presets kept in SRAM *)
Lemma store_calls ops s cs : MidiSpec.boots_to (MCallback true :: map message ops) s cs -> without stores ops ->
  forall c, In c (skipn 4 cs) -> (forall n p, c <> DStore n p) /\ (forall n p, c <> DStoreFrom n p).
Proof.
  intros B W c Hc. destruct (boots_menu _ _ _ B c Hc) as [[V| ->]|(m & [<-|Hx] & M)].
  - split; intros n p ->; destruct V.
  - split; discriminate.
  - destruct M.
  - apply in_message in Hx as [Hx| ->]; [|split; intros n p ->; destruct M]. assert (N := W _ Hx).
    assert (Vx : MidiCallProofs.voice_call c -> (forall n p, c <> DStore n p) /\ (forall n p, c <> DStoreFrom n p)).
    { intros V. split; intros n p ->; destruct V. }
    destruct m as [? ? ?|? ?|ch k v|? ?|? ?|data| | |b]; cbn [MidiCallProofs.menu] in M; auto.
    + destruct M as [M|[(t & a & b & d' & ->)|[(a & b & ->)|[(-> & n & q & ->)|[(o & -> & So & _)|[(_ & b & ->)|(_ & b & ->)]]]]]]; auto; try (split; discriminate).
      exfalso. apply N. left. eexists. eexists. reflexivity.
    + destruct M as [M|(t & a & b & d' & ->)]; [auto|split; discriminate].
    + destruct M as [[_ M]|[(_ & l & ->)|[(_ & l & ->)|[(_ & a & b & d & ->)|[(K & n & q & ->)|[(_ & n & ->)|[(_ & n & ->)|(_ & a & n & ->)]]]]]]]; auto; try (split; discriminate).
      exfalso. apply N. right. exact K.
    + destruct M as [M|[->|[->| ->]]]; auto; split; discriminate.
Qed.
Lemma other_no_sram r s c a v : In (EvSramWrite a v) (other_by r s c) -> False.
Proof.
  destruct c as [vt n x ce vel|vt n x|vt n x|vt n x|vt n|vt n x|vt n x ce|n b|op|e|prog q|prog|n prog|prog|mc n|data| | | | | |k mc key w|mc b];
    try (destruct vt); cbn [other_by]; try contradiction;
    try (intros H; destruct H as [H|H]; [discriminate|contradiction]);
    try (intros H; apply in_map_iff in H as (z & H & _); discriminate).
  destruct (zget (rom_pcm r) x) as [[smp|]|]; try contradiction. intros [H|H]; [discriminate|contradiction].
Qed.
Lemma sram_other e : In e (filter other_event [e]) \/ other_event e = false.
Proof. cbn. destruct (other_event e); [left; left; reflexivity|right; reflexivity]. Qed.
Lemma no_sram_write o : filter other_event o = [] \/ (exists r s c, filter other_event o = other_by r s c) -> forall a v, ~ In (EvSramWrite a v) o.
Proof.
  intros H a v Hin. assert (X : In (EvSramWrite a v) (filter other_event o)) by (apply filter_In; split; [exact Hin|reflexivity]).
  destruct H as [H|(r & s & c & H)]; rewrite H in X; [destruct X|exact (other_no_sram _ _ _ _ _ X)].
Qed.
Theorem sram_unused r hw mem ops s tr : history r hw mem ops s tr ->
  sr_mem (v_sram (a_dev s)) = mem /\ (forall a v, ~ In (EvSramWrite a v) tr).
Proof.
  intros H. assert (H' := H). destruct H' as (Hr & Hm & _). destruct (history_played _ _ _ _ _ _ H) as (Hi & cs & B & P).
  apply (played_rec r Hr mem Hm (fun cs s tr => sr_mem (v_sram s) = mem /\ forall a v, ~ In (EvSramWrite a v) tr)) with (cs := cs); [..|exact P|exact (boots_calls_ok _ _ _ B)].
  - intros s0 o _ _ _ _ _ O M _ _. split; [exact M|]. apply no_sram_write. left. exact O.
  - intros cs0 s0 tr0 c s' o I0 G0 [J1 J2] Hc Hb _ D F O _. split.
    + destruct F as (_ & _ & _ & _ & F & _). rewrite F. exact J1.
    + intros a v X. apply in_app_or in X as [X|X]; [exact (J2 _ _ X)|]. revert X. apply no_sram_write. right. eauto.
  - intros cs0 s0 tr0 x o I0 G0 [J1 J2] D O. split; [exact J1|]. intros a v X.
    apply in_app_or in X as [X|X]; [exact (J2 _ _ X)|]. revert X. apply no_sram_write. left. exact O.
  - intros cs0 s0 tr0 x o I0 G0 [J1 J2] D O. split; [exact J1|]. intros a v X.
    apply in_app_or in X as [X|X]; [exact (J2 _ _ X)|]. revert X. apply no_sram_write. left. exact O.
Qed.
Lemma user_none_after s c n : (forall n p, c <> DStore n p) -> (forall n p, c <> DStoreFrom n p) -> user_after s c n None = None.
Proof.
  intros H1 H2. destruct c; try reflexivity; cbn.
  - contradiction (H1 prog p). reflexivity.
  - destruct (_ =? _); reflexivity.
  - contradiction (H2 num prog). reflexivity.
Qed.
Theorem presets_forgotten r hw mem ops s tr : history r hw mem ops s tr -> without stores ops ->
  forall n, 0 <= n < 128 -> instrument r (a_dev s) n = nth (Z.to_nat n) (rom_presets r) no_preset.
Proof.
  intros H W. assert (H' := H). destruct H' as (Hr & Hm & _). destruct (history_played _ _ _ _ _ _ H) as (Hi & cs & B & P).
  assert (Q := store_calls _ _ _ B W).
  assert (X : (forall c, In c (skipn 4 cs) -> (forall n p, c <> DStore n p) /\ (forall n p, c <> DStoreFrom n p)) ->
    forall n, 0 <= n < 128 -> zget (v_user (a_dev s)) n = Some None).
  { clear Q.
    apply (played_rec r Hr mem Hm (fun u s tr => (forall c, In c u -> (forall n p, c <> DStore n p) /\ (forall n p, c <> DStoreFrom n p)) ->
      forall n, 0 <= n < 128 -> zget (v_user s) n = Some None)) with (cs := cs) (tr := tr); [..|exact P|exact (boots_calls_ok _ _ _ B)].
    - intros s0 o _ _ _ _ _ _ _ _ U _. exact U.
    - intros u s0 tr0 c s' o I0 G0 J Hc Hb _ D F O _ Hn n Hn'.
      destruct F as (_ & _ & _ & _ & _ & _ & F). rewrite (F n None).
      + f_equal. destruct (Hn c) as [N1 N2]; [apply in_or_app; right; left; reflexivity|]. apply user_none_after; assumption.
      + apply J; [|exact Hn']. intros c' Hc'. apply Hn, in_or_app. left. exact Hc'.
    - intros u s0 tr0 x o I0 G0 J D O. exact J.
    - intros u s0 tr0 x o I0 G0 J D O. exact J. }
  intros n Hn. unfold instrument. rewrite (X Q n Hn). reflexivity.
Qed.
Lemma done_state {S A} (a b : A) (s t : S) o p : Done a s o = Done b t p -> t = s.
Proof. congruence. Qed.
Lemma demo_ok a : 0 <= a < 8 -> preset_ok (demo_preset a).
Proof. intros H. unfold preset_ok. cbn. repeat constructor; cbn; lia. Qed.
Theorem c22_refuted r hw : rom_ok r -> exists sram n p, SramSpec.sram_ok sram /\ sr_present sram = true /\ 0 <= n < 128 /\ SramSpec.loads sram n (Some p) /\ exists s tr, history r hw (sr_mem sram) [] s tr /\ instrument r (a_dev s) n <> p.
Proof.
  intros Hr. set (a := (p_alg (nth 5 (rom_presets r) no_preset) + 1) mod 8).
  assert (Ha : 0 <= a < 8) by (apply Z.mod_pos_bound; lia).
  destruct (SramProofs.c17 SramProofs.blank 5 (demo_preset a) SramProofs.blank_ok eq_refl ltac:(unfold SramSpec.is_program; lia) (demo_ok a Ha)) as (sr & o & E & L).
  assert (K : SramSpec.sram_ok sr /\ sr_present sr = true).
  { rewrite SramProofs.save_eq in E by (exact SramProofs.blank_ok || reflexivity || (unfold SramSpec.is_program; lia) || exact (demo_ok a Ha)).
    apply done_state in E. subst sr. split; [apply SramProofs.saved_ok; [exact SramProofs.blank_ok|exact (demo_ok a Ha)]|reflexivity]. }
  exists sr, 5, (demo_preset a). split; [apply K|]. split; [apply K|]. split; [lia|]. split; [exact L|].
  destruct (history_total r hw (sr_mem sr) [] Hr (proj1 K) (Forall_nil _)) as [(s & tr & H)|(x & op & b & s & tr & E1 & _)];
    [|destruct x; discriminate].
  exists s, tr. split; [exact H|]. rewrite (presets_forgotten _ _ _ _ _ _ H ltac:(intros m []) 5 ltac:(lia)).
  intros X. assert (Y : p_alg (nth 5 (rom_presets r) no_preset) = a) by (change (nth 5 (rom_presets r) no_preset) with (nth (Z.to_nat 5) (rom_presets r) no_preset); rewrite X; reflexivity).
  destruct (Forall_zget _ _ 5 (nth 5 (rom_presets r) no_preset) (proj1 (proj2 Hr))) as (R & _).
  { apply (zget_nth (rom_presets r) 5). destruct Hr as (HL & _). rewrite HL. lia. }
  revert Y. unfold a. intros Y. symmetry in Y. destruct (Z.eq_dec (p_alg (nth 5 (rom_presets r) no_preset)) 7) as [E7|N7].
  - rewrite E7 in Y. discriminate.
  - rewrite Z.mod_small in Y by lia. lia.
Qed.

(** ** Every history runs *)
Theorem c48_app r hw mem ops : rom_ok r -> mem_ok mem -> Forall aop_ok ops ->
  (exists s tr, history r hw mem ops s tr /\ app_ok s) \/
  (exists a op b s tr, ops = a ++ op :: b /\ history r hw mem a s tr /\
    ((app_boot r hw mem ops = Fault F_pcm /\ missing_sample (message op) (a_midi s)) \/
     (app_boot r hw mem ops = Fault F_uninit /\ MidiSpec.odd_envelope (message op)))).
Proof.
  intros Hr Hm Ho. destruct (history_total r hw mem ops Hr Hm Ho) as [(s & tr & H)|H]; [left|right; exact H].
  exists s, tr. split; [exact H|]. destruct (history_played _ _ _ _ _ _ H) as ((H1 & [H2 _] & _) & _). split; assumption.
Qed.
