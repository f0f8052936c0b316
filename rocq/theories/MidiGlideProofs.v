(** Portamento. *)
From Verif Require Import Base BaseLemmas PitchModel PitchSpec PitchProofs NotePriorityModel SynthModel.
From Verif Require Import MidiModel MidiSpec MidiProofs MidiOkProofs MidiEqProofs MidiEffectProofs MidiNoteProofs.

Definition glide_ok (n : Z) (d : dev) : Prop :=
  0 <= d_pitch d < 256 /\ 0 <= d_cents d < 100 /\ 0 < d_glide d < 128 /\ 1 <= n <= 1145 /\
  (position d <= 100 * d_glide d \/ n <= 100 * d_glide d).

Lemma glide_step n d : glide_ok n d ->
  let d' := glide_dev n d in let G := 100 * d_glide d in
  (* arrived *)
  (d_glide d' = 0 /\ position d' = G /\ d_pitch d' = d_glide d /\ d_cents d' = 0) \/
  (* already there *)
  (d' = d /\ position d = G) \/
  (* on the way *)
  (glide_ok n d' /\ d_glide d' = d_glide d /\
   (position d < position d' < G /\ position d' = position d + n \/
    G < position d' < position d /\ position d' = position d - n)).
Proof.
  intros (Hp & Hc & Hg & Hn & Hlow). cbv zeta. unfold glide_dev, position in *.
  destruct (Z.eqb_spec (d_glide d) 0); [lia|]. cbn [orb].
  destruct (Z.eqb_spec (d_glide d) (d_pitch d)) as [E|E]; cbn [andb].
  - destruct (Z.eqb_spec (d_cents d) 0) as [E0|E0]; cbn [andb]; [right; left; split; [reflexivity|lia]|].
    unfold glide_inc. destruct (Z.ltb_spec (d_pitch d) (d_glide d)); [lia|]. destruct (Z.ltb_spec (d_glide d) (d_pitch d)); [lia|].
    cbn [orb]. destruct (Z.eqb_spec (d_glide d) (d_pitch d)); [|lia]. destruct (Z.ltb_spec 0 (d_cents d)); [|lia]. cbn [andb].
    rewrite (s16_small (0 - n)) by lia.
    destruct (pc_shift_exact (mkPc (d_pitch d) (d_cents d)) (0 - n)) as (T & Tc & Tp); [unfold total; cbn; lia|].
    unfold total in T; cbn [pc_pitch pc_cents] in T. set (pc := pc_shift _ _) in *. clearbody pc.
    replace (0 <? 0 - n) with false by lia. replace (0 - n <? 0) with true by lia. cbn [andb orb].
    destruct (Z.leb_spec (pc_pitch pc) (d_glide d)); [|lia]. left. cbn. unfold u8. rewrite Z.mod_small by lia. lia.
  - unfold glide_inc. destruct (Z.ltb_spec (d_pitch d) (d_glide d)) as [Hl|Hl].
    + rewrite (s16_small n) by lia.
      destruct (pc_shift_exact (mkPc (d_pitch d) (d_cents d)) n) as (T & Tc & Tp); [unfold total; cbn; lia|].
      unfold total in T; cbn [pc_pitch pc_cents] in T. set (pc := pc_shift _ _) in *. clearbody pc.
      replace (0 <? n) with true by lia. replace (n <? 0) with false by lia. cbn [andb orb]. rewrite orb_false_r.
      destruct (Z.leb_spec (d_glide d) (pc_pitch pc)).
      * left. cbn. unfold u8. rewrite Z.mod_small by lia. lia.
      * right; right. unfold glide_ok, position. cbn. lia.
    + destruct (Z.ltb_spec (d_glide d) (d_pitch d)); [|lia]. cbn [orb]. rewrite (s16_small (0 - n)) by lia.
      destruct (pc_shift_exact (mkPc (d_pitch d) (d_cents d)) (0 - n)) as (T & Tc & Tp); [unfold total; cbn; lia|].
      unfold total in T; cbn [pc_pitch pc_cents] in T. set (pc := pc_shift _ _) in *. clearbody pc.
      replace (0 <? 0 - n) with false by lia. replace (0 - n <? 0) with true by lia. cbn [andb orb].
      destruct (Z.leb_spec (pc_pitch pc) (d_glide d)).
      * left. cbn. unfold u8. rewrite Z.mod_small by lia. lia.
      * right; right. unfold glide_ok, position. cbn. lia.
Qed.

(** After arriving nothing moves. *)
Definition arrived (g : Z) (d : dev) : Prop := d_pitch d = g /\ d_cents d = 0 /\ (d_glide d = 0 \/ d_glide d = g).
Lemma arrived_stays n g d : arrived g d -> glide_dev n d = d.
Proof.
  intros (H1 & H2 & H3). unfold glide_dev. rewrite H1, H2. destruct H3 as [-> | ->]; [reflexivity|].
  rewrite !Z.eqb_refl. rewrite orb_true_r. reflexivity.
Qed.
Lemma iter_S {A} (f : A -> A) k x : Nat.iter (S k) f x = f (Nat.iter k f x).
Proof. reflexivity. Qed.
Lemma iter_Sr {A} (f : A -> A) k : forall x, Nat.iter (S k) f x = Nat.iter k f (f x).
Proof. induction k; intros x; [reflexivity|]. rewrite iter_S, IHk. reflexivity. Qed.
Lemma iter_arrived n g k : forall d, arrived g d -> Nat.iter k (glide_dev n) d = d.
Proof. induction k; intros d H; [reflexivity|]. rewrite iter_S, (IHk d H). apply (arrived_stays n g d H). Qed.

Definition towards (G P Q : Z) : Prop := P <= Q <= G \/ G <= Q <= P.
Lemma iter_glide n g : forall k d, glide_ok n d -> d_glide d = g ->
  let d' := Nat.iter k (glide_dev n) d in
  towards (100 * g) (position d) (position d') /\
  (arrived g d' \/ glide_ok n d' /\ d_glide d' = g /\ Z.of_nat k * n < Z.abs (position d - 100 * g) /\
     Z.abs (position d' - 100 * g) = Z.abs (position d - 100 * g) - Z.of_nat k * n).
Proof.
  induction k as [|k IH]; intros d Hd Hg; cbv zeta.
  - change (Nat.iter 0 (glide_dev n) d) with d. split; [unfold towards; lia|].
    destruct (Z.eq_dec (position d) (100 * g)) as [E|E].
    + left. unfold arrived. unfold position in E. destruct Hd as (H1 & H2 & H3 & _). lia.
    + right. split; [exact Hd|]. split; [exact Hg|]. lia.
  - rewrite iter_S. destruct (IH d Hd Hg) as [HT HA].
    set (e := Nat.iter k (glide_dev n) d) in *. destruct HA as [HA|(He & Heg & Hk & Hdist)].
    + rewrite (arrived_stays n g e HA). split; [exact HT|left; exact HA].
    + destruct (glide_step n e He) as [(S1 & S2 & S3 & S4)|[(S1 & S2)|(S1 & S2 & S3)]]; rewrite Heg in *.
      * split; [unfold towards in *; lia|]. left. unfold arrived. lia.
      * rewrite S1. split; [exact HT|]. left. unfold arrived, position in *. destruct He as (H1 & H2 & _). lia.
      * split; [unfold towards in *; lia|]. right. split; [exact S1|]. split; [exact S2|]. lia.
Qed.

(** ** Frames *)
Lemma map_iter {A} (f : A -> A) k : forall l, Nat.iter k (map f) l = map (Nat.iter k f) l.
Proof.
  induction k; intros l; [cbn; rewrite map_id; reflexivity|].
  rewrite iter_S, IHk, map_map. reflexivity.
Qed.
Lemma run_ticks k : forall s, midi_ok s ->
  exists o, midi_run (repeat MTick k) s = WDone (md_set_dev s (map (Nat.iter k (tick_dev (md_ch s))) (md_dev s))) o.
Proof.
  induction k as [|k IH]; intros s Hs.
  - exists []. cbn. rewrite map_id. destruct s; reflexivity.
  - cbn [repeat midi_run midi_step]. rewrite (midi_tick_eq _ Hs).
    destruct (step_ok MTick s _ _ Hs I (midi_tick_eq _ Hs)) as [Hs1 _].
    destruct (IH _ Hs1) as [o Eo]. unfold wbind. rewrite Eo. eexists. f_equal.
    cbn [md_dev md_ch md_set_dev]. rewrite map_map. unfold md_set_dev. cbn [md_ch md_dyn md_pref md_nogm md_stick md_inv md_cb]. f_equal. apply map_ext. intros d. rewrite iter_Sr. reflexivity.
Qed.

Lemma tick_iter chs m n k : forall d, d_midi d <> UNASSIGNED -> zget chs (d_midi d) = Some m -> m_porta m = true ->
  m_int m = n -> d_on d = true -> Nat.iter k (tick_dev chs) d = Nat.iter k (glide_dev n) d.
Proof.
  induction k as [|k IH]; intros d H1 H2 H3 H4 H5; [reflexivity|]. rewrite !iter_Sr.
  assert (E : tick_dev chs d = glide_dev n d).
  { unfold tick_dev. rewrite H2, H3, H5, H4. destruct (Z.eqb_spec (d_midi d) UNASSIGNED); [contradiction|]. reflexivity. }
  rewrite E. apply IH; rewrite ?glide_midi; try assumption.
  unfold glide_dev. destruct (_ || _); [exact H5|]. cbv zeta. destruct (_ || _); exact H5.
Qed.
Lemma iter_keeps n k : forall d, d_on (Nat.iter k (glide_dev n) d) = d_on d /\ d_midi (Nat.iter k (glide_dev n) d) = d_midi d.
Proof.
  induction k as [|k IH]; intros d; [auto|]. rewrite iter_S. destruct (IH d) as [<- <-].
  split; [|apply glide_midi]. unfold glide_dev. destruct (_ || _); [reflexivity|]. cbv zeta. destruct (_ || _); reflexivity.
Qed.
(** [k] frames of a glide. *)
Lemma glide_frames s i d m k :
  midi_ok s -> gliding s i d m -> reachable_target m d ->
  exists s' o d', midi_run (repeat MTick k) s = WDone s' o /\ dev_at s' i d' /\ d_on d' = true /\ d_midi d' = d_midi d /\
    let G := 100 * d_glide d in
    (position d <= position d' <= G \/ G <= position d' <= position d) /\
    (Z.abs (position d - G) <= Z.of_nat k * m_int m -> position d' = G /\ d_pitch d' = d_glide d /\ d_cents d' = 0) /\
    (position d' <> G -> Z.abs (position d' - G) = Z.abs (position d - G) - Z.of_nat k * m_int m).
Proof.
  intros Hs (Hd & Hm & Hon & Hpo & Hg) Hr. destruct (ok_dev _ _ _ Hs Hd) as [(_ & Hmap & _ & Hp & _ & _ & _ & Hc & Hg7) _].
  destruct (ok_ch _ _ _ Hs Hm) as [Hmok Hmc]. unfold ch_ok in Hmok.
  assert (Hint : 1 <= m_int m <= 1145) by tauto.
  destruct (run_ticks k s Hs) as [o Eo]. eexists _, _, _. split; [exact Eo|].
  split; [unfold dev_at; cbn [md_dev md_set_dev]; rewrite zget_map, Hd; reflexivity|].
  assert (Hu : d_midi d <> UNASSIGNED).
  { unfold UNASSIGNED. intros E. rewrite E in Hm. apply zget_Some in Hm. destruct Hs as (_ & Hl & _). lia. }
  rewrite (tick_iter (md_ch s) m (m_int m) k d Hu Hm Hpo eq_refl Hon).
  destruct (iter_keeps (m_int m) k d) as [-> ->]. split; [exact Hon|]. split; [reflexivity|]. cbv zeta.
  assert (Hok : glide_ok (m_int m) d).
  { unfold glide_ok. unfold seven in Hg7. unfold reachable_target in Hr. lia. }
  destruct (iter_glide (m_int m) (d_glide d) k d Hok eq_refl) as [HT HA].
  set (e := Nat.iter k (glide_dev (m_int m)) d) in *. split; [exact HT|].
  assert (Harr : arrived (d_glide d) e -> position e = 100 * d_glide d) by (unfold arrived, position; lia).
  split.
  - intros Hk. destruct HA as [HA|(_ & _ & H1 & H2)]; [|lia]. unfold arrived in HA. unfold position. lia.
  - intros Hne. destruct HA as [HA|(_ & _ & H1 & H2)]; [specialize (Harr HA); lia|exact H2].
Qed.
(** What the voice is told: without bend and fine tuning, the new position. *)
Lemma eff_plain m d : d_bend d = 8192 -> m_fine m = 0 -> 0 <= d_pitch d < 256 -> 0 <= d_cents d < 100 ->
  pc_pitch (eff m d) = d_pitch d /\ pc_cents (eff m d) = d_cents d.
Proof.
  intros Hb Hf Hp Hc. unfold eff, pc_bend. rewrite Hb, Hf. replace (8192 - 8192) with 0 by lia. rewrite Z.mul_0_l.
  change (s16 (Z.quot 0 8192)) with 0.
  destruct (pc_shift_exact (mkPc (d_pitch d) (d_cents d)) 0) as (T & T1 & T2); [unfold total; cbn; lia|].
  unfold total in T. cbn [pc_pitch pc_cents] in T.
  destruct (pc_shift_exact (pc_shift (mkPc (d_pitch d) (d_cents d)) 0) 0) as (T' & T3 & T4); [unfold total; lia|].
  unfold total in T'. lia.
Qed.
Lemma frame_tells s i d m s' o :
  midi_ok s -> gliding s i d m -> position d <> 100 * d_glide d -> d_bend d = 8192 -> m_fine m = 0 ->
  steps s MTick s' o -> exists d', dev_at s' i d' /\ In (DPitch (d_ops d) (d_num d) (d_pitch d') (d_cents d')) o.
Proof.
  intros Hs (Hd & Hm & Hon & Hpo & Hg) Hne Hb Hf E. unfold steps in E; cbn [midi_step] in E.
  rewrite (midi_tick_eq _ Hs) in E. injection E as <- <-.
  assert (Hs' : midi_ok (md_set_dev s (map (tick_dev (md_ch s)) (md_dev s)))) by (apply (step_ok MTick s _ _ Hs I (midi_tick_eq _ Hs))).
  assert (Hd' : dev_at (md_set_dev s (map (tick_dev (md_ch s)) (md_dev s))) i (tick_dev (md_ch s) d)).
  { unfold dev_at in *. cbn [md_dev md_set_dev]. rewrite zget_map, Hd. reflexivity. }
  exists (tick_dev (md_ch s) d). split; [exact Hd'|]. apply in_flat_map. exists d.
  split; [unfold dev_at, zget in Hd; destruct (i <? 0); [discriminate|]; eapply nth_error_In; exact Hd|].
  destruct (ok_dev _ _ _ Hs' Hd') as [(_ & _ & _ & Hp & _ & _ & _ & Hc & _) _]. revert Hp Hc.
  unfold tick_calls, tick_dev. rewrite Hm, Hpo, Hon.
  assert (Hu : d_midi d <> UNASSIGNED).
  { unfold UNASSIGNED. intros E. rewrite E in Hm. apply zget_Some in Hm. destruct Hs as (_ & Hl & _). lia. }
  destruct (Z.eqb_spec (d_midi d) UNASSIGNED); [contradiction|]. cbn [negb andb]. unfold glide_calls.
  assert (Hcond : (d_glide d =? 0) || ((d_glide d =? d_pitch d) && (d_cents d =? 0)) = false) by (unfold position in Hne; lia).
  rewrite Hcond. cbv zeta. intros Hp Hc.
  assert (Hsame : d_bend (glide_dev (m_int m) d) = d_bend d /\ d_ops (glide_dev (m_int m) d) = d_ops d /\ d_num (glide_dev (m_int m) d) = d_num d).
  { unfold glide_dev. destruct (_ || _); [auto|]. cbv zeta. destruct (_ || _); auto. }
  destruct Hsame as (S1 & S2 & S3).
  destruct (eff_plain m (glide_dev (m_int m) d)) as [-> ->]; [congruence|exact Hf|exact Hp|exact Hc|].
  rewrite S2, S3. left. reflexivity.
Qed.
