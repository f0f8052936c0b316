(** Keys stopped only by All Notes Off wear a channel out. *)
From Verif Require Import Base BaseLemmas SynthModel SynthSpec MidiModel MidiSpec MidiProofs MidiOkProofs MidiEqProofs MidiEffectProofs MidiNoteProofs MidiHistProofs MidiStaticProofs MidiPlaceProofs.
From Verif Require Import DevModel DevSpec AppModel AppSpec AppProofs AppTraceProofs AppClaimsProofs AppViewProofs SoundSpec AppKeyProofs AppToneProofs SongSpec.

Definition wears (c : Z) (op : mop) : Prop :=
  op = MTick \/ op = MCallback true \/ (exists p v, op = MNoteOn c p v /\ 1 <= v) \/ exists v, op = MCc c 123 v.
Definition worn (h : nat * bool) (op : mop) : nat * bool :=
  match op with MNoteOn _ _ _ => (S (fst h), snd h) | MCc _ _ _ => (fst h, snd h || Nat.leb 10 (fst h)) | _ => h end.
Definition worn_inv (c : Z) (h : nat * bool) (s : midi) : Prop :=
  static_map s /\ (exists m, ch_at s c m /\ m_porta m = false /\ length (keys (m_np m)) = Nat.min (fst h) 10) /\
  (snd h = true -> (10 <= fst h)%nat /\ forall d, dev_at s c d -> d_on d = false).
Lemma tick_on chs d : d_on (tick_dev chs d) = d_on d.
Proof. unfold tick_dev, glide_dev. destruct (zget _ _) as [m|]; [|reflexivity]. repeat (match goal with |- context [if ?b then _ else _] => destruct b end; try reflexivity). Qed.
Lemma wears_maps c op : wears c op -> ~ remaps op.
Proof. intros [-> |[-> |[(p & v & -> & _)|(v & ->)]]] [(a & b & [=])|[(a & [=])|[(a & [=])|(a & [=])]]]. Qed.
Lemma worn_step c op h s s' o : 0 <= c < 6 -> wears c op -> mop_ok op -> midi_ok s -> worn_inv c h s -> steps s op s' o -> midi_ok s' -> worn_inv c (worn h op) s'.
Proof.
  intros Hc W Hop Hs (St & (m & Hm & Po & Le) & Df) E Hs'.
  assert (St' := static_step op tt s s' o (wears_maps _ _ W) Hop Hs St E Hs'). split; [exact St'|].
  destruct W as [-> |[-> |[(p & v & -> & Hv)|(v & ->)]]]; unfold steps in E; cbn [midi_step worn] in *.
  - rewrite midi_tick_eq in E by exact Hs. injection E as <- <-. split; [exists m; auto|]. intros B. destruct (Df B) as [B1 B2]. split; [exact B1|].
    intros d Hd. unfold dev_at in Hd. cbn [md_dev md_set_dev] in Hd. rewrite zget_map in Hd. destruct (zget (md_dev s) c) as [e|] eqn:He; [|discriminate]. injection Hd as <-. rewrite tick_on. exact (B2 e He).
  - injection E as <- <-. split; [exists m; auto|]. exact Df.
  - cbn [fst snd]. destruct Hop as (Hch & Hp & _). destruct (midi_note_on_eq c p v s m Hs Hch Hp ltac:(lia) Hm) as (s1 & o1 & E2 & R). rewrite E in E2. injection E2 as <- <-.
    destruct (zget_in_range (md_dev s) c) as [d Hd]; [destruct Hs as [-> _]; lia|].
    destruct R as [[Ht|[Ht|[_ Ht]]]|i e st Ht Ci He _ _ _ Hpo' _|i e st Ht Ci He _ Ok Ek _|i e Ht Ci He Hvc].
    + exfalso. unfold tooManyPercussiveNotes in Ht. destruct (Z.eqb_spec c PERCUSSION) as [X|X]; [unfold PERCUSSION in X; lia|discriminate].
    + exfalso. unfold chosen in Ht. destruct (device_min_max (m_sel m)) as [lo hi]. destruct St as [H1 H2]. rewrite H1 in Ht.
      destruct (first_dev _ _ _) in Ht; [discriminate|]. cbn [orelse] in Ht. unfold by_midi in Ht.
      assert (X := first_dev_none _ _ _ _ c d Ht ltac:(lia) Hd). cbv beta in X. rewrite (H2 c d Hd) in X. lia.
    + split; [exists m; repeat (split; [assumption|]); lia|]. intros B. destruct (Df B) as [B1 B2]. split; [lia|exact B2].
    + congruence.
    + assert (L10 : (length (keys st) <= 10)%nat) by (apply stack_repr in Ok; destruct Ok as (_ & _ & L & _); exact L). rewrite Ek, app_length in L10. cbn [length] in L10.
      split.
      * exists (m_set_vel (m_set_np m st) v). split; [|split; [exact Po|]].
        -- unfold ch_at. cbn [md_ch md_set_dev md_set_ch]. apply zget_zset_same. eapply zget_Some; exact Hm.
        -- cbn [m_np m_set_vel m_set_np]. rewrite Ek, app_length. cbn [length]. lia.
      * intros B. destruct (Df B) as [B1 B2]. lia.
    + exfalso. apply Hvc. apply static_single; [assumption..|lia].
  - cbn [fst snd]. destruct Hop as (Hch & _ & Hv).
    destruct (midi_cc_result _ _ _ _ m _ _ Hs Hch Hv Hm E) as (o' & R & ->). clear E.
    destruct R as [m' Hf|Hk'|Hk'|Hk'|s1 Hk' E|Hk'|s1 o1 Hk' E|Hk' _|Hk' Hr|Hk'|o1 Hk' _|Hk'|devs o1 Hk' HH]; try (exfalso; lia).
    + discriminate Hf.
    + split; [exists m; auto|]. intros B. destruct (Nat.leb_spec 10 (fst h)) as [B1|B1]; [|rewrite orb_false_r in B; destruct (Df B); lia]. split; [exact B1|].
      intros d Hd. unfold dev_at in Hd. cbn [md_dev md_set_dev] in Hd. rewrite zget_map in Hd. destruct (zget (md_dev s) c) as [e|] eqn:He; [|discriminate]. injection Hd as <-.
      destruct St as [_ S2]. unfold at_chan. rewrite (S2 c e He), Z.eqb_refl. reflexivity.
    + exfalso. apply Hk'. cbn; tauto.
Qed.

Lemma worn_fold ops : forall h, fold_left worn (map message ops) h = ((fst h + key_presses ops)%nat, snd (fold_left worn (map message ops) h)).
Proof.
  unfold key_presses. induction ops as [|op t IH]; intros h; [cbn; rewrite Nat.add_0_r; destruct h; reflexivity|]. cbn [map fold_left]. rewrite IH. f_equal.
  destruct op as [[]|]; cbn [filter length message worn fst snd]; lia.
Qed.
Lemma worn_stays ops : forall h, snd h = true -> snd (fold_left worn ops h) = true.
Proof. induction ops as [|op t IH]; intros h H; [exact H|]. cbn [fold_left]. apply IH. destruct op; cbn [worn snd]; rewrite ?H; reflexivity. Qed.
Lemma press_wears c op : press_or_stop c op -> wears c (message op).
Proof. intros [-> |[(p & v & -> & H)|(v & ->)]]; cbn [message]; [left; reflexivity|right; right; left; eauto|right; right; right; eauto]. Qed.
Theorem stopped_dead r hw mem c v before more s tr : 0 <= c < 6 -> Forall (press_or_stop c) before -> (10 <= key_presses before)%nat -> Forall (press_or_stop c) more ->
  history r hw mem (before ++ AMsg (MCc c 123 v) :: more) s tr -> key_state tr c = Some false.
Proof.
  intros Hc F1 Hp F2 H. set (ops := before ++ AMsg (MCc c 123 v) :: more) in *.
  assert (F : Forall (press_or_stop c) ops) by (apply Forall_app; split; [exact F1|constructor; [right; right; exists v; reflexivity|exact F2]]).
  destruct (history_played _ _ _ _ _ _ H) as (_ & cs & B & _).
  assert (I : midi_ok (a_midi s) /\ worn_inv c (fold_left worn (MCallback true :: map message ops) (0%nat, false)) (a_midi s)).
  { apply (boot_induction worn (0%nat, false) (wears c) (worn_inv c)) with (o := cs); [| | |exact B].
    - split; [exact static_booted|]. split; [|discriminate]. destruct (zget_in_range (md_ch booted) c) as [m Hm]; [destruct booted_ok as (_ & -> & _); lia|].
      exists m. destruct (booted_ch _ _ Hm) as (K & P). split; [exact Hm|]. split; [exact P|]. rewrite K. reflexivity.
    - intros op h s0 s' o' W H2 H3 H4 H5 H6. exact (worn_step c op h s0 s' o' Hc W H2 H3 H4 H5 H6).
    - constructor; [right; left; reflexivity|]. apply Forall_forall. intros m Hm. apply in_map_iff in Hm as (op & <- & Ho). rewrite Forall_forall in F. apply press_wears, F, Ho. }
  destruct I as (_ & _ & _ & Df).
  assert (X : snd (fold_left worn (MCallback true :: map message ops) (0%nat, false)) = true).
  { cbn [fold_left worn]. unfold ops. rewrite map_app. cbn [map message]. rewrite fold_left_app. cbn [fold_left]. apply worn_stays. cbn [worn snd].
    rewrite worn_fold. cbn [fst]. replace (Nat.leb 10 (0 + key_presses before)) with true by (symmetry; apply Nat.leb_le; lia). apply orb_true_r. }
  destruct (Df X) as [_ Off].
  assert (W : forall P : mop -> Prop, (forall p w, ~ P (MNoteOn c p w)) -> (forall w, ~ P (MCc c 123 w)) -> without P ops).
  { intros P P1 P2 m Hm. rewrite Forall_forall in F. destruct (F _ Hm) as [Y|[(p & w & [= ->] & _)|(w & [= ->])]]; [discriminate Y|apply P1|apply P2]. }
  destruct (c31_keys r hw mem ops s tr c H Hc) as ([|] & d & K & Hd & On).
  - apply W; [intros p w|intros w]; intros [(l & [=])|(l & [=])].
  - apply W; [intros p w (a & b & [=])|intros w (a & b & [=])].
  - apply W; [intros p w (a & b & [=])|intros w (a & b & [=])].
  - right. apply W; [intros p w (a & [=])|intros w (a & [=])].
  - rewrite (Off d Hd) in On. discriminate (On eq_refl).
  - exact K.
Qed.

(** With portamento one key is enough. *)
Definition slides (c : Z) (op : mop) : Prop := wears c op \/ exists w, op = MCc c 65 w /\ 64 <= w.
Definition slid (h : bool * (bool * bool)) (op : mop) : bool * (bool * bool) :=
  let '(po, (k, dead)) := h in
  match op with
  | MNoteOn _ _ _ => (po, (true, dead))
  | MCc _ n _ => if n =? 65 then (true, (k, dead)) else (po, (k, dead || (po && k)))
  | _ => h
  end.
Definition slid_inv (c : Z) (h : bool * (bool * bool)) (s : midi) : Prop :=
  let '(po, (k, dead)) := h in
  static_map s /\ (exists m, ch_at s c m /\ (po = true -> m_porta m = true) /\ (k = true -> keys (m_np m) <> [])) /\
  (dead = true -> po = true /\ k = true /\ forall d, dev_at s c d -> d_on d = false).
Lemma slides_maps c op : slides c op -> ~ remaps op.
Proof. intros [W|(w & -> & _)]; [exact (wears_maps c op W)|]. intros [(a & b & [=])|[(a & [=])|[(a & [=])|(a & [=])]]]. Qed.
Lemma slid_step c op h s s' o : 0 <= c < 6 -> slides c op -> mop_ok op -> midi_ok s -> slid_inv c h s -> steps s op s' o -> midi_ok s' -> slid_inv c (slid h op) s'.
Proof.
  intros Hc W Hop Hs I E Hs'. destruct h as (po & k & dead). destruct I as (St & (m & Hm & Po & Le) & Df).
  assert (St' := static_step op tt s s' o (slides_maps _ _ W) Hop Hs St E Hs').
  destruct W as [[-> |[-> |[(p & v & -> & Hv)|(v & ->)]]]|(w & -> & Hw)]; unfold steps in E; cbn [midi_step slid slid_inv] in *.
  - split; [exact St'|]. rewrite midi_tick_eq in E by exact Hs. injection E as <- <-. split; [exists m; auto|]. intros B. destruct (Df B) as (B1 & B2 & B3). repeat (split; [assumption|]).
    intros d Hd. unfold dev_at in Hd. cbn [md_dev md_set_dev] in Hd. rewrite zget_map in Hd. destruct (zget (md_dev s) c) as [e|] eqn:He; [|discriminate]. injection Hd as <-. rewrite tick_on. exact (B3 e He).
  - split; [exact St'|]. injection E as <- <-. split; [exists m; auto|]. exact Df.
  - split; [exact St'|]. destruct Hop as (Hch & Hp & _). destruct (midi_note_on_eq c p v s m Hs Hch Hp ltac:(lia) Hm) as (s1 & o1 & E2 & R). rewrite E in E2. injection E2 as <- <-.
    destruct (zget_in_range (md_dev s) c) as [d Hd]; [destruct Hs as [-> _]; lia|].
    assert (Nn : forall l : list Z, l ++ [p] <> []) by (intros [|? ?]; discriminate).
    destruct R as [[Ht|[Ht|[_ Ht]]]|i e st Ht Ci He _ Ok Ek Hpo' Hk|i e st Ht Ci He _ Ok Ek Hor|i e Ht Ci He Hvc].
    + exfalso. unfold tooManyPercussiveNotes in Ht. destruct (Z.eqb_spec c PERCUSSION) as [X|X]; [unfold PERCUSSION in X; lia|discriminate].
    + exfalso. unfold chosen in Ht. destruct (device_min_max (m_sel m)) as [lo hi]. destruct St as [H1 H2]. rewrite H1 in Ht.
      destruct (first_dev _ _ _) in Ht; [discriminate|]. cbn [orelse] in Ht. unfold by_midi in Ht.
      assert (X := first_dev_none _ _ _ _ c d Ht ltac:(lia) Hd). cbv beta in X. rewrite (H2 c d Hd) in X. lia.
    + split; [exists m; split; [assumption|]; split; [assumption|]; intros _ X; rewrite X in Ht; discriminate Ht|]. intros B. destruct (Df B) as (B1 & B2 & B3). auto.
    + split.
      * exists (m_set_vel (m_set_np m st) v). split; [|split; [exact Po|]].
        -- unfold ch_at. cbn [md_ch md_set_dev md_set_ch]. apply zget_zset_same. eapply zget_Some; exact Hm.
        -- intros _. cbn [m_np m_set_vel m_set_np]. rewrite Ek. apply Nn.
      * intros B. destruct (Df B) as (B1 & B2 & B3). split; [exact B1|]. split; [reflexivity|].
        intros d' Hd'. unfold dev_at in Hd'. cbn [md_dev md_set_dev md_set_ch] in Hd'. 
        destruct (Z.eq_dec i c) as [-> |Ne].
        -- rewrite zget_zset_same in Hd' by (eapply zget_Some; exact He). injection Hd' as <-. exact (B3 e He).
        -- rewrite zget_zset_other in Hd' by (first [exact Ne | lia]). exact (B3 _ Hd').
    + split.
      * exists (m_set_vel (m_set_np m st) v). split; [|split; [exact Po|]].
        -- unfold ch_at. cbn [md_ch md_set_dev md_set_ch]. apply zget_zset_same. eapply zget_Some; exact Hm.
        -- intros _. cbn [m_np m_set_vel m_set_np]. rewrite Ek. apply Nn.
      * intros B. destruct (Df B) as (B1 & B2 & B3). exfalso. destruct Hor as [X|X]; [rewrite (Po B1) in X; discriminate X|exact (Le B2 X)].
    + exfalso. apply Hvc. apply static_single; [assumption..|lia].
  - change (123 =? 65) with false. cbv iota. split; [exact St'|]. destruct Hop as (Hch & _ & Hv).
    destruct (midi_cc_result _ _ _ _ m _ _ Hs Hch Hv Hm E) as (o' & R & ->). clear E.
    destruct R as [m' Hf|Hk'|Hk'|Hk'|s1 Hk' E|Hk'|s1 o1 Hk' E|Hk' _|Hk' Hr|Hk'|o1 Hk' _|Hk'|devs o1 Hk' HH]; try (exfalso; lia).
    + discriminate Hf.
    + split; [exists m; auto|]. intros B.
      assert (B' : po = true /\ k = true) by (destruct dead; [destruct (Df eq_refl) as (B1 & B2 & _); auto|apply andb_true_iff in B; exact B]).
      destruct B' as [B1 B2]. repeat (split; [assumption|]).
      intros d Hd. unfold dev_at in Hd. cbn [md_dev md_set_dev] in Hd. rewrite zget_map in Hd. destruct (zget (md_dev s) c) as [e|] eqn:He; [|discriminate]. injection Hd as <-.
      destruct St as [_ S2]. unfold at_chan. rewrite (S2 c e He), Z.eqb_refl. reflexivity.
    + exfalso. apply Hk'. cbn; tauto.
  - change (65 =? 65) with true. cbv iota. split; [exact St'|]. destruct Hop as (Hch & _ & Hv).
    destruct (midi_cc_result _ _ _ _ m _ _ Hs Hch Hv Hm E) as (o' & R & ->). clear E.
    destruct R as [m' Hf|Hk'|Hk'|Hk'|s1 Hk' E|Hk'|s1 o1 Hk' E|Hk' _|Hk' Hr|Hk'|o1 Hk' _|Hk'|devs o1 Hk' HH]; try (exfalso; lia).
    + cbn [cc_field Z.eqb] in Hf. injection Hf as <-. split; [|intros B; destruct (Df B) as (_ & B2 & B3); auto].
      exists (m_set_porta m (negb (RANGE w 2 =? 0))). split; [|split; [|exact Le]].
      * unfold ch_at. cbn [md_ch md_set_ch]. apply zget_zset_same. eapply zget_Some; exact Hm.
      * intros _. cbn [m_porta m_set_porta]. unfold RANGE. destruct Hv as [_ Hv]. change (Z.quot 128 2) with 64. rewrite Z.quot_div_nonneg by lia. assert (X : 1 = w / 64) by (apply Z.div_unique with (w - 64); lia). rewrite <- X. reflexivity.
    + exfalso. apply Hk'. cbn; tauto.
Qed.

Lemma slid_dead ops : forall po k dead, dead = true -> snd (snd (fold_left slid ops (po, (k, dead)))) = true.
Proof.
  induction ops as [|op t IH]; intros po k dead ->; [reflexivity|]. cbn [fold_left].
  destruct op; cbn [slid]; try (apply IH; reflexivity). destruct (_ =? 65); apply IH; reflexivity.
Qed.
Lemma slid_pressed ops : forall k dead, exists k' dead' : bool, fold_left slid (map message ops) (true, (k, dead)) = @pair bool (bool * bool) true (k', dead') /\
  (k = true \/ (1 <= key_presses ops)%nat -> k' = true).
Proof.
  unfold key_presses. induction ops as [|op t IH]; intros k dead.
  - exists k, dead. split; [reflexivity|]. intros [H|H]; [exact H|cbn in H; lia].
  - cbn [map fold_left]. destruct op as [[]|]; cbn [message slid filter length]; try exact (IH k dead).
    + destruct (IH true dead) as (k' & dead' & E & H). exists k', dead'. split; [exact E|]. intros _. apply H. left. reflexivity.
    + destruct (_ =? 65); apply IH.
Qed.
Theorem glide_dead r hw mem c w v before more s tr : 0 <= c < 6 -> 64 <= w ->
  Forall (press_or_stop c) before -> (1 <= key_presses before)%nat -> Forall (press_or_stop c) more ->
  history r hw mem (AMsg (MCc c 65 w) :: before ++ AMsg (MCc c 123 v) :: more) s tr -> key_state tr c = Some false.
Proof.
  intros Hc Hw F1 Hp F2 H. set (rest := before ++ AMsg (MCc c 123 v) :: more) in *.
  assert (F : Forall (press_or_stop c) rest) by (apply Forall_app; split; [exact F1|constructor; [right; right; exists v; reflexivity|exact F2]]).
  destruct (history_played _ _ _ _ _ _ H) as (_ & cs & B & _).
  assert (I : midi_ok (a_midi s) /\ slid_inv c (fold_left slid (MCallback true :: map message (AMsg (MCc c 65 w) :: rest)) (false, (false, false))) (a_midi s)).
  { apply (boot_induction slid (false, (false, false)) (slides c) (slid_inv c)) with (o := cs); [| | |exact B].
    - split; [exact static_booted|]. split; [|discriminate]. destruct (zget_in_range (md_ch booted) c) as [m Hm]; [destruct booted_ok as (_ & -> & _); lia|].
      exists m. split; [exact Hm|]. split; discriminate.
    - intros op h s0 s' o' W H2 H3 H4 H5 H6. exact (slid_step c op h s0 s' o' Hc W H2 H3 H4 H5 H6).
    - constructor; [left; right; left; reflexivity|]. cbn [map message]. constructor; [right; exists w; auto|].
      apply Forall_forall. intros m Hm. apply in_map_iff in Hm as (op & <- & Ho). rewrite Forall_forall in F. left. apply press_wears, F, Ho. }
  destruct I as (_ & I).
  assert (X : snd (snd (fold_left slid (MCallback true :: map message (AMsg (MCc c 65 w) :: rest)) (false, (false, false)))) = true).
  { cbn [map message fold_left slid]. change (65 =? 65) with true. cbv iota. unfold rest. rewrite map_app. cbn [map message]. rewrite fold_left_app.
    destruct (slid_pressed before false false) as (k & dead & E & K). rewrite E, (K (or_intror Hp)). cbn [fold_left slid]. change (123 =? 65) with false. cbv iota.
    apply slid_dead. apply orb_true_r. }
  destruct (fold_left slid _ _) as (po & k & dead). cbn [snd] in X. destruct I as (_ & _ & Df). destruct (Df X) as (_ & _ & Off).
  assert (W : forall P : mop -> Prop, (forall p w, ~ P (MNoteOn c p w)) -> (forall w, ~ P (MCc c 123 w)) -> (forall w, ~ P (MCc c 65 w)) -> without P (AMsg (MCc c 65 w) :: rest)).
  { intros P P1 P2 P3 m [[= <-]|Hm]; [apply P3|]. rewrite Forall_forall in F. destruct (F _ Hm) as [Y|[(p & u & [= ->] & _)|(u & [= ->])]]; [discriminate Y|apply P1|apply P2]. }
  destruct (c31_keys r hw mem _ s tr c H Hc) as ([|] & d & K & Hd & On).
  - apply W; [intros p u|intros u|intros u]; intros [(l & [=])|(l & [=])].
  - apply W; [intros p u (a & b & [=])|intros u (a & b & [=])|intros u (a & b & [=])].
  - apply W; [intros p u (a & b & [=])|intros u (a & b & [=])|intros u (a & b & [=])].
  - right. apply W; [intros p u (a & [=])|intros u (a & [=])|intros u (a & [=])].
  - rewrite (Off d Hd) in On. discriminate (On eq_refl).
  - exact K.
Qed.
