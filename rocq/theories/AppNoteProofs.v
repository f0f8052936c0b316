(** A note-on message from the keyboard to the chip. *)
From Verif Require Import Base BaseLemmas PitchModel PitchSpec PitchProofs SynthModel SynthSpec SynthProofs SynthMirrorProofs SynthClaimsProofs SynthViewProofs.
From Verif Require Import MidiModel MidiSpec MidiProofs MidiOkProofs MidiEqProofs MidiEffectProofs MidiCallProofs MidiChanProofs MidiTuneProofs MidiDevProofs MidiInvProofs MidiStaticProofs MidiPlaceProofs.
From Verif Require Import PsgModel DevModel DevSpec DevProofs AppModel AppSpec AppProofs AppTraceProofs AppClaimsProofs AppViewProofs AppKeyProofs SoundSpec AppSoundProofs AppToneProofs.

(** ** The last message of a history *)
Lemma history_last r hw mem ops m s0 tr0 s o : history r hw mem ops s0 tr0 -> history r hw mem (ops ++ [AMsg m]) s (tr0 ++ o) ->
  mop_ok m /\ exists cs, steps (a_midi s0) m (a_midi s) cs /\ perform_all r (detected s0) cs (a_dev s0) = Done tt (a_dev s) o.
Proof.
  intros (_ & _ & _ & E0) (_ & _ & F & E). apply Forall_app in F as [_ F]. split; [exact (Forall_inv F)|].
  apply boot_snoc in E as (s1 & o1 & o2 & E1 & E2 & E3). rewrite E0 in E1. injection E1 as <- <-. apply app_inv_head in E3 as <-.
  cbn [app_step] in E2. unfold app_midi in E2. unfold steps. destruct (midi_step m (a_midi s0)) as [m' cs|]; [|discriminate].
  exists cs. destruct (perform_all r (detected s0) cs (a_dev s0)) as [[] d o'|]; [|discriminate]. injection E2 as <- <-. split; reflexivity.
Qed.

(** The view of one channel over a list of calls. *)
Lemma perform_all_view r (Hr : rom_ok r) det n cs : 0 <= n < 6 -> forall w s tr s' o, dev_inv s -> psg_good r (v_psg s) -> Forall dcall_ok cs -> ~ In DFmInit cs ->
  perform_all r det cs s = Done tt s' o -> cv_holds n w s tr -> cv_holds n (fold_left (cv_step r n) cs w) s' (tr ++ o).
Proof.
  intros Hn. induction cs as [|c t IH]; intros w s tr s' o Hi Hg Hc Hf E V.
  - cbn in E. injection E as <- <-. rewrite app_nil_r. exact V.
  - unfold perform_all in E. cbn [runM] in E. apply bind_inv in E as ([] & s1 & o1 & o2 & E1 & E2 & ->).
    assert (Hf1 : c = DFmInit -> det = false) by (intros ->; exfalso; apply Hf; left; reflexivity).
    assert (Hb : ~ beyond_samples c) by (intros B; rewrite (perform_beyond r Hr det c s B) in E1; discriminate).
    destruct (perform_does r Hr det c s Hi Hg (Forall_inv Hc) Hf1 Hb) as (s1' & o1' & D & F & I1 & G1).
    assert (X := proj1 D). rewrite E1 in X. injection X as <- <-. cbn [fold_left]. rewrite app_assoc.
    apply (IH _ s1); [exact I1|exact G1|exact (Forall_inv_tail Hc)|intros X; apply Hf; right; exact X|exact E2|].
    eapply cv_next; [exact Hr|exact Hn|exact Hi|exact (Forall_inv Hc)|exact V|exact D|reflexivity|exact F].
Qed.
(** Nothing known but what the devices hold. *)
Definition cv_now (n : Z) (s : devst) : cview :=
  mkCv (f_vol (fm_of s n)) (f_vel (fm_of s n)) (f_perc (fm_of s n)) (mkSv None (vol (v_synth s) n) (c_st (chn (v_synth s) n)) no_preset None true false) true.
Lemma cv_now_holds n s : cv_holds n (cv_now n s) s [].
Proof. repeat (split; [reflexivity|]). split; [|discriminate]. split; [reflexivity|]. split; [reflexivity|]. split; [discriminate|]. intros _. split; reflexivity. Qed.

(** ** The calls of a note-on *)
Lemma note_calls s c p v s' cs : midi_ok s -> mop_ok (MNoteOn c p v) -> v <> 0 -> steps s (MNoteOn c p v) s' cs -> cs <> [] ->
  exists i d m, 0 <= i < 13 /\ shape_ok i d /\ ch_ok c m /\ dev_at s' i (started m c p d) /\ cs = start_calls m c p v d /\ ch_at s' c m /\
    exists m0, ch_at s c m0 /\ m_bend m = m_bend m0 /\ m_range m = m_range m0 /\ m_fine m = m_fine m0 /\ m_vol m = m_vol m0 /\ m_prog m = m_prog m0.
Proof.
  intros Hs (Hc & Hp & Hv) N E Hne. destruct (ok_ch_get s c Hs Hc) as (m0 & Hm & Hok).
  destruct (midi_note_on_eq c p v s m0 Hs Hc Hp N Hm) as (s1 & o1 & E1 & R). unfold steps in E. cbn [midi_step] in E. rewrite E1 in E. injection E as <- <-.
  assert (D : forall i d, chosen s m0 c = Some i -> zget (md_dev s) i = Some d -> 0 <= i < 13 /\ shape_ok i d).
  { intros i d Hi Hd. split; [exact (chosen_range _ _ _ _ Hi)|]. apply (ok_dev _ _ _ Hs Hd). }
  assert (Hlen := proj1 Hs). assert (Hcl := zget_Some _ _ _ Hm).
  destruct R as [X|i d st T C Hd V So K Po Ne|i d st T C Hd V So K Po|i d T C Hd V]; try contradiction.
  - destruct (D i d C Hd) as [Hi Hsh]. exists i, (d_set_glide d 0), (m_set_vel (m_set_np m0 st) v).
    split; [exact Hi|]. split; [exact Hsh|]. split; [unfold ch_ok in *; cbn; intuition|]. split.
    { apply zget_zset_same. rewrite Hlen. exact Hi. }
    split; [reflexivity|]. split.
    { apply zget_zset_same. exact Hcl. }
    exists m0. repeat (split; [reflexivity||exact Hm|]). reflexivity.
  - destruct (D i d C Hd) as [Hi Hsh]. exists i, d, m0. split; [exact Hi|]. split; [exact Hsh|]. split; [exact Hok|]. split.
    { apply zget_zset_same. rewrite Hlen. exact Hi. }
    split; [reflexivity|]. split; [exact Hm|]. exists m0. repeat (split; [reflexivity||exact Hm|]). reflexivity.
Qed.

(** The calls before the note itself. *)
Definition tuneup (m : mchan) (c p : Z) (d : dev) : list dcall :=
  (if (d_midi d =? 9) && negb (c =? 9) then [DProgram (d_ops d) (d_num d) (m_prog m)] else []) ++ sync_calls m (prepared c p d).
Lemma start_calls_split m c p v d : start_calls m c p v d = tuneup m c p d ++ [DNoteOn (d_ops d) (d_num d) (pc_pitch (eff m (started m c p d))) (pc_cents (eff m (started m c p d))) v].
Proof. unfold start_calls, tuneup. rewrite <- app_assoc. reflexivity. Qed.

Definition quiet_call (c : dcall) : Prop := match c with DVolume _ _ _ | DPan _ _ _ | DProgram _ _ _ | DPitch _ _ _ _ => True | _ => False end.
Lemma cv_quiet r n w c : quiet_call c -> cv_key (cv_step r n w c) = cv_key w /\ cv_perc (cv_step r n w c) = cv_perc w /\ v_raw (cv_sv (cv_step r n w c)) = v_raw (cv_sv w).
Proof.
  intros Q. unfold cv_key. destruct c as [? ? ? ? ?|? ? ?|k x y|k x y|? ?|k x y|k x y z|? ?|?|?|? ?|?|? ?|?|? ?|?| | | | | |? ? ? ?|? ?]; try contradiction; destruct k;
    cbn [cv_step cv_sops fold_left]; try (repeat split; reflexivity);
    destruct (Z.eqb_spec x n) as [->|Hx]; try rewrite andb_true_r; try rewrite andb_false_r; try destruct (cv_user w); cbn [cv_perc cv_sv sv_step]; unfold sv_edit; cbn [v_key v_raw];
    rewrite ?Z.eqb_refl; try (destruct (Z.eqb_spec x n); [contradiction|]); repeat split; reflexivity.
Qed.
Lemma cv_quiet_all r n cs : forall w, Forall quiet_call cs -> let w' := fold_left (cv_step r n) cs w in cv_key w' = cv_key w /\ cv_perc w' = cv_perc w /\ v_raw (cv_sv w') = v_raw (cv_sv w).
Proof.
  induction cs as [|c t IH]; intros w Q; [repeat split; reflexivity|]. cbn [fold_left]. destruct (cv_quiet r n w c (Forall_inv Q)) as (A & B & C).
  destruct (IH (cv_step r n w c) (Forall_inv_tail Q)) as (A' & B' & C'). cbv zeta. rewrite A', B', C'. auto.
Qed.
Lemma tuneup_view r n m c p d w : let w' := fold_left (cv_step r n) (tuneup m c p d) w in
  cv_key w' = cv_key w /\ v_raw (cv_sv w') = v_raw (cv_sv w) /\ (d_num d = n -> cv_perc w' = (c =? 9)).
Proof.
  cbv zeta. unfold tuneup, sync_calls. rewrite !fold_left_app.
  set (a := if (d_midi d =? 9) && negb (c =? 9) then _ else _). assert (Qa : Forall quiet_call a) by (unfold a; destruct (_ && _); repeat constructor).
  destruct (cv_quiet_all r n a w Qa) as (A1 & A2 & A3). set (w1 := fold_left (cv_step r n) a w) in *. rewrite <- !fold_left_app.
  match goal with |- context[[?x] ++ ?l] => set (b := l); rewrite (fold_left_app (cv_step r n) [x] b); set (w2 := fold_left (cv_step r n) [x] w1) end.
  assert (Qb : Forall quiet_call b) by (unfold b; repeat (apply Forall_app; split); match goal with |- Forall _ (if ?x then _ else _) => destruct x end; repeat constructor).
  destruct (cv_quiet_all r n b w2 Qb) as (B1 & B2 & B3). rewrite B1, B2, B3.
  unfold w2. cbn [fold_left cv_step]. cbn [prepared d_num d_set_pitch d_set_cents d_set_on d_set_midi d_midi].
  destruct (Z.eqb_spec (d_num d) n) as [e|e]; unfold cv_key; cbn [cv_sv cv_perc]; (split; [exact A1|]; split; [exact A3|]); [reflexivity|contradiction].
Qed.

(** What the note itself does to the view. *)
Definition noted (r : rom) (n : Z) (w : cview) (q ce v : Z) : cview := cv_step r n w (DNoteOn VFm n q ce v).
Lemma noted_eq r n w q ce v : playable q = true ->
  noted r n w q ce v =
  let key := if cv_perc w then snd (drum r q) else q in
  mkCv (cv_vol w) v (cv_perc w)
    (mkSv (Some true) (loudness (cv_vol w) v) (v_side (cv_sv w)) (if cv_perc w then fst (drum r q) else v_pre (cv_sv w))
       (Some (pitch_to_octave key mod 8, freq_of r key ce mod 2048)) (if cv_perc w then false else v_edited (cv_sv w)) (v_raw (cv_sv w))) (cv_user w).
Proof.
  intros P. unfold noted. cbn [cv_step cv_sops]. rewrite P, Z.eqb_refl. cbn [andb]. destruct (cv_perc w); cbn [Datatypes.app fold_left sv_step]; rewrite !Z.eqb_refl; reflexivity.
Qed.
Lemma octave_key key : pitch_to_octave key mod 8 = Z.quot (key - 11) 12 mod 8.
Proof. unfold pitch_to_octave, u8, MIN_MIDI_PITCH. change 256 with (8 * 32). rewrite <- Znumtheory.Zmod_div_mod; [reflexivity|lia|lia|exists 32; reflexivity]. Qed.

Section Note.
Context (r : rom) (hw : hardware) (mem : list Z) (ops : list aop) (c p v : Z) (s0 s : app) (tr0 o : list event).
Context (H0 : history r hw mem ops s0 tr0) (H : history r hw mem (ops ++ [AMsg (MNoteOn c p v)]) s (tr0 ++ o)).
Context (n : Z) (Hn : 0 <= n < 6) (Hv : v <> 0) (Hk : key_state o n = Some true).

Lemma note_view : exists d m cs w, let q := pc_pitch (eff m (started m c p d)) in let ce := pc_cents (eff m (started m c p d)) in
  dev_at (a_midi s) n (started m c p d) /\ ch_at (a_midi s) c m /\ ch_ok c m /\ is_chan c /\ seven p /\ playable q = true /\
  boots_to (MCallback true :: map message ops) (a_midi s0) cs /\ boots_to (MCallback true :: map message (ops ++ [AMsg (MNoteOn c p v)])) (a_midi s) (cs ++ start_calls m c p v d) /\
  cv_perc w = (c =? 9) /\ v_raw (cv_sv w) = v_raw (cv_sv (fold_left (cv_step r n) (skipn 4 cs) (cv0 r))) /\
  cv_holds n (noted r n w q ce v) (a_dev s) (tr0 ++ o).
Proof.
  assert (H' := H0). destruct H' as (Hr & Hm & _).
  destruct (history_last _ _ _ _ _ _ _ _ _ H0 H) as (Ho & cs1 & St & Pa).
  destruct (history_played _ _ _ _ _ _ H0) as ((Hs & Hi & Hg) & cs & B & P).
  assert (Hs1 := step_ok _ _ _ _ Hs Ho St). destruct Hs1 as [_ Hc1].
  assert (NE : cs1 <> []).
  { intros ->. cbn in Pa. injection Pa as _ <-. discriminate Hk. }
  destruct (note_calls _ _ _ _ _ _ Hs Ho Hv St NE) as (i & d & m & Hi13 & Hsh & Hok & Hd & -> & Hch & _).
  assert (NF : ~ In DFmInit (start_calls m c p v d)).
  { unfold start_calls, sync_calls. intros X. repeat (apply in_app_or in X as [X|X]); try (destruct X as [X|[]]; discriminate X);
      match type of X with In _ (if ?b then _ else _) => destruct b end; destruct X as [X|[]] || destruct X; discriminate X. }
  assert (V0 := perform_all_view r Hr _ n _ Hn _ _ _ _ _ Hi Hg Hc1 NF Pa (cv_now_holds n (a_dev s0))). cbn [Datatypes.app] in V0.
  rewrite start_calls_split in V0. rewrite fold_left_app in V0. cbn [fold_left] in V0.
  destruct (tuneup_view r n m c p d (cv_now n (a_dev s0))) as (T1 & T2 & T3). set (w1 := fold_left (cv_step r n) (tuneup m c p d) _) in *.
  set (q := pc_pitch (eff m (started m c p d))) in *. set (ce := pc_cents (eff m (started m c p d))) in *.
  assert (K : d_ops d = VFm /\ d_num d = n /\ playable q = true).
  { destruct V0 as (_ & _ & _ & (_ & _ & _ & V) & _). unfold cv_key in T1. cbn in T1, T2.
    destruct (d_ops d); cbn [cv_step cv_sops fold_left cv_sv] in V; try (rewrite T2 in V; destruct (V eq_refl) as [V' _]; rewrite V', T1 in Hk; discriminate).
    destruct (playable q) eqn:Pq; [|rewrite andb_false_r in V; rewrite T2 in V; destruct (V eq_refl) as [V' _]; rewrite V', T1 in Hk; discriminate].
    destruct (Z.eqb_spec (d_num d) n) as [e|e]; [auto|]. cbn [andb] in V. rewrite T2 in V; destruct (V eq_refl) as [V' _]; rewrite V', T1 in Hk; discriminate. }
  destruct K as (K1 & K2 & K3).
  assert (Ein : i = n).
  { destruct Hsh as (S1 & S2 & S3). destruct (Z_lt_dec i 6); [destruct (S1 l) as [S _]; congruence|].
    destruct (Z_lt_dec i 10); [destruct S2 as [_ S]; [lia|congruence]|]. destruct S3 as [_ S]; [lia|congruence]. }
  subst i.
  assert (V := played_view r Hr mem Hm n cs _ _ Hn P (boots_calls_ok _ _ _ B)).
  assert (V1 := perform_all_view r Hr _ n _ Hn _ _ _ _ _ Hi Hg Hc1 NF Pa V). rewrite start_calls_split, fold_left_app in V1. cbn [fold_left] in V1.
  set (w0 := fold_left (cv_step r n) (skipn 4 cs) (cv0 r)) in *.
  destruct (tuneup_view r n m c p d w0) as (_ & U2 & U3). specialize (U3 K2).
  exists d, m, cs, (fold_left (cv_step r n) (tuneup m c p d) w0). cbv zeta. fold q ce.
  rewrite K1, K2 in V1.
  repeat (split; [first [exact Hd|exact Hch|exact Hok|apply Ho|exact K3|exact B]|]). split.
  { rewrite map_app. apply (boots_snoc (MCallback true :: map message ops) (MNoteOn c p v) _ _ _ _ B Ho St). }
  split; [exact U3|]. split; [exact U2|exact V1].
Qed.

Local Notation ms := (map message ops).
Local Notation all := (ops ++ [AMsg (MNoteOn c p v)]).
Lemma without_note P : (forall a b e, ~ P (MNoteOn a b e)) -> without P ops -> without P all.
Proof. intros N W m Hin. apply in_app_or in Hin as [Hin|[[= <-]|[]]]; [exact (W m Hin)|apply N]. Qed.
Lemma raw_all : without raw_write ops -> without raw_write all.
Proof. apply without_note. intros a b e. unfold raw_write, is_sysex_cmd. intros [(l & [=])|(l & [=])]. Qed.
Lemma settings_note a : settings (map message all) a = settings ms a.
Proof. unfold settings. rewrite map_app, fold_left_app. reflexivity. Qed.

(** The pitch sent to the voice. *)
Lemma note_eff d m cs1 : ch_at (a_midi s) c m -> ch_ok c m -> seven p -> boots_to (MCallback true :: map message all) (a_midi s) cs1 ->
  0 <= bent ms c p -> 0 <= pitched ms c p ->
  pc_pitch (eff m (started m c p d)) = pitched ms c p / 100 /\ pc_cents (eff m (started m c p d)) = pitched ms c p mod 100.
Proof.
  intros Hch Hok Hp B L1 L2.
  destruct (settings_boot _ _ _ B) as [_ S]. destruct (S c m Hch) as (_ & _ & _ & S4 & S5 & S6 & _). rewrite settings_messages, settings_note in S4, S5, S6.
  destruct (tune_boot _ _ _ B) as [_ (_ & T)]. destruct (T c m Hch) as [_ T2].
  assert (T3 : tn_fine (tuned (MCallback true :: map message all)) c = tn_fine (tuned ms) c).
  { unfold tuned. cbn [fold_left tuning_after]. rewrite map_app, fold_left_app. reflexivity. }
  rewrite T3 in T2. destruct Hok as (_ & _ & _ & _ & Hb & R1 & R2 & _ & _ & _ & _ & F).
  unfold eff. cbn [started synced prepared d_pitch d_cents d_bend d_set_pitch d_set_cents d_set_on d_set_midi].
  set (rg := total (m_range m)) in *. unfold MidiSpec.seven, seven in *. assert (Hrg : 0 <= rg <= 12827) by (unfold rg, total; lia).
  assert (BB := bend_cents_bound (m_bend m) rg ltac:(lia) ltac:(lia)).
  assert (E1 : bent ms c p = p * 100 + 0 + bend_cents (m_bend m) rg).
  { unfold bent. rewrite <- S4, <- S5, <- S6. unfold rg, total. rewrite (Z.mul_comm (pc_pitch (m_range m))). lia. }
  assert (E2 := pc_bend_exact p 0 (m_bend m) (m_range m) ltac:(lia) ltac:(unfold rg in *; lia) ltac:(fold rg; lia)). fold rg in E2. rewrite <- E1 in E2.
  destruct (pc_shift_exact (pc_bend p 0 (m_bend m) (m_range m)) (m_fine m)) as (E3 & E4 & E5).
  { rewrite E2. unfold pitched in L2. rewrite <- T2 in L2. lia. }
  assert (X : total (pc_shift (pc_bend p 0 (m_bend m) (m_range m)) (m_fine m)) = pitched ms c p) by (rewrite E3, E2, T2; reflexivity).
  rewrite <- X. unfold total. set (y := pc_shift _ _) in *.
  rewrite Z.add_comm, Z.div_add, Z.mod_add, Z.div_small, Z.mod_small by lia. lia.
Qed.

Context (W1 : without raw_write ops).
(** Key and pitch. *)
Theorem note_pitch : 0 <= bent ms c p -> 0 <= pitched ms c p ->
  let x := pitched ms c p in
  11 <= x / 100 <= 106 /\ key_state (tr0 ++ o) n = Some true /\
  chip_freq (tr0 ++ o) n = Some (fm_note r (if c =? 9 then snd (drum r (x / 100)) else x / 100) (x mod 100)).
Proof.
  intros L1 L2. cbv zeta. destruct note_view as (d & m & cs & w & Hd & Hch & Hok & Hc & Hp & Pl & B & B1 & U1 & U2 & V).
  destruct (note_eff d m _ Hch Hok Hp B1 L1 L2) as [E1 E2]. rewrite E1 in Pl. rewrite E1, E2, (noted_eq _ _ _ _ _ _ Pl) in V. cbv zeta in V. rewrite U1 in V.
  unfold playable in Pl. apply andb_prop in Pl as [Pl1 Pl2]. apply Z.leb_le in Pl1, Pl2. split; [lia|].
  destruct V as (_ & _ & _ & (_ & _ & _ & V) & _). cbn [v_raw v_key v_frq cv_sv] in V. rewrite U2 in V.
  destruct V as [V1 V2]; [exact (cv_raw_free_all r n _ (cv0 r) (history_not_raw _ _ _ B W1) eq_refl)|]. split; [exact V1|]. rewrite V2, octave_key. reflexivity.
Qed.

(** The voice, for the theorems about sounding voices. *)
Lemma note_sounding : exists d, dev_at (a_midi s) n d /\ d_on d = true /\ d_midi d = c /\ d_pitch d = p /\ f_vel (fm_of (a_dev s) n) = v.
Proof.
  destruct note_view as (d & m & cs & w & Hd & Hch & Hok & Hc & Hp & Pl & B & B1 & U1 & U2 & V).
  exists (started m c p d). split; [exact Hd|]. repeat (split; [reflexivity|]). rewrite (noted_eq _ _ _ _ _ _ Pl) in V. cbv zeta in V. apply V.
Qed.

(** Percussion: the drum of the key. *)
Lemma drum_set : c = 9 -> 0 <= bent ms c p -> 0 <= pitched ms c p ->
  chan_preset (chn (v_synth (a_dev s)) n) = fst (drum r (pitched ms c p / 100)) /\ vol (v_synth (a_dev s)) n = loudness (f_vol (fm_of (a_dev s) n)) v.
Proof.
  intros C L1 L2. destruct note_view as (d & m & cs & w & Hd & Hch & Hok & Hc & Hp & Pl & B & B1 & U1 & U2 & V).
  destruct (note_eff d m _ Hch Hok Hp B1 L1 L2) as [E1 E2]. rewrite (noted_eq _ _ _ _ _ _ Pl), E1, U1, C in V. cbn in V.
  destruct V as (V0 & _ & _ & (V1 & _ & V3 & _) & _). cbn in V0, V1, V3. split; [rewrite <- C, Z.eqb_refl in V3; apply V3; reflexivity|]. rewrite V0. exact V1.
Qed.
Theorem drum_instrument : c = 9 -> 0 <= bent ms c p -> 0 <= pitched ms c p -> plays_preset (ym_regs (tr0 ++ o)) n (fst (drum r (pitched ms c p / 100))).
Proof.
  intros C L1 L2. destruct (drum_set C L1 L2) as [E _].
  destruct (c13_app _ _ _ _ _ _ H (raw_all W1)) as [_ M]. destruct (M n Hn) as (ch & Hch & (M1 & M2 & _ & M4 & M5 & M6) & _).
  assert (Hs : synth_ok (v_synth (a_dev s))) by (destruct (history_played _ _ _ _ _ _ H) as (Hi & _); apply Hi).
  assert (Z := zget_chn _ Hs n Hn). rewrite Hch in Z. injection Z as Z. rewrite <- Z in E. rewrite <- E.
  unfold plays_preset, chan_preset. cbn [p_alg p_fb p_ams p_fms p_ops]. repeat (split; [assumption|]). exact M6.
Qed.

Context (W2 : without remapping ops) (W3 : without (is_cc 78) ops).
Lemma remapping_all : without remapping all.
Proof. apply without_note; [|exact W2]. intros a b e. unfold remapping, is_sysex_cmd. intros [(x & y & [=])|[(x & y & [=])|[(l & [=])|(l & [=])]]]. Qed.
Lemma cc_all k : without (is_cc k) ops -> without (is_cc k) all.
Proof. apply without_note. intros a b e (x & y & [=]). Qed.
Theorem note_side : without (is_cc 77) ops -> chip_st (ym_regs (tr0 ++ o)) n = Some (pan_side (st_pan (settings ms c))).
Proof.
  intros W4. destruct note_sounding as (d & Hd & Hon & Hc & _).
  assert (X := side_settings r hw mem all s _ H n Hn d Hd Hon remapping_all (cc_all 78 W3) (raw_all W1) (cc_all 77 W4)). rewrite Hc, settings_note in X. exact X.
Qed.

Context (W4 : without edits_fm ops) (W5 : without stores ops).
Lemma edits_all : without edits_fm all.
Proof. apply without_note; [|exact W4]. intros a b e (x & y & z & [=] & _). Qed.
Lemma stores_all : without stores all.
Proof. apply without_note; [|exact W5]. intros a b e. unfold stores, is_sysex_cmd. intros [(x & y & [=])|(l & [=])]. Qed.
Lemma sm_all : n <> 2 \/ without sm_note ops /\ (c < 10 \/ 12 < c) -> n <> 2 \/ without sm_note all.
Proof.
  intros [X|[X Y]]; [left; exact X|right]. intros m Hin. apply in_app_or in Hin as [Hin|[[= <-]|[]]]; [exact (X m Hin)|]. intros (a & b & e & [= <- <- <-] & Z). lia.
Qed.
Theorem drum_level : c = 9 -> 0 <= bent ms c p -> 0 <= pitched ms c p -> n <> 2 \/ without sm_note ops ->
  plays_level (ym_regs (tr0 ++ o)) n (fst (drum r (pitched ms c p / 100))) (loudness (st_vol (settings ms c)) v).
Proof.
  intros C L1 L2 W6. destruct (drum_set C L1 L2) as [E1 E2].
  destruct note_sounding as (d & Hd & Hon & Hc & _).
  destruct (tone r hw mem all s _ H n Hn d Hd Hon remapping_all (cc_all 78 W3) false false ltac:(discriminate) ltac:(discriminate)) as (w & cs & k & _ & _ & _ & V & _ & _ & Vo & _).
  destruct V as (V1 & _). rewrite Hc, settings_note in Vo. rewrite V1, Vo in E2. rewrite <- E1, <- E2.
  assert (Hs : synth_ok (v_synth (a_dev s))) by (destruct (history_played _ _ _ _ _ _ H) as (Hi & _); apply Hi).
  intros q Hq. exists (opr (v_synth (a_dev s)) n q). split; [apply zget_oper; [apply chn_ok; [exact Hs|exact Hn]|exact Hq]|].
  apply (chip_levels r hw mem all s _ H n Hn remapping_all (raw_all W1) edits_all stores_all); [|exact Hq].
  apply sm_all. destruct W6; [left; assumption|right]. split; [assumption|lia].
Qed.
Lemma drums_all : drums_in_order ms -> c <> 9 -> drums_in_order (map message all).
Proof.
  unfold drums_in_order. intros D N. rewrite map_app, fold_left_app. cbn [map message fold_left].
  destruct (fold_left drum_phase ms (Some 0)) as [k|]; [|contradiction D; reflexivity]. cbn [drum_phase].
  destruct (Z.eqb_spec c 9); [contradiction|]. cbn. discriminate.
Qed.
Theorem note_instrument : drums_in_order ms -> c <> 9 ->
  plays_preset (ym_regs (tr0 ++ o)) n (nth (Z.to_nat (st_prog (settings ms c))) (rom_presets r) no_preset).
Proof.
  intros D N. destruct note_sounding as (d & Hd & Hon & Hc & _).
  assert (X := instrument_settings r hw mem all s _ H n Hn d Hd Hon remapping_all (cc_all 78 W3) (raw_all W1) edits_all stores_all (drums_all D N)).
  cbv zeta in X. rewrite Hc, settings_note in X. exact (X N).
Qed.
Theorem note_level : drums_in_order ms -> c <> 9 -> n <> 2 \/ without sm_note ops /\ (c < 10 \/ 12 < c) ->
  plays_level (ym_regs (tr0 ++ o)) n (nth (Z.to_nat (st_prog (settings ms c))) (rom_presets r) no_preset) (loudness (st_vol (settings ms c)) v).
Proof.
  intros D N W6. destruct note_sounding as (d & Hd & Hon & Hc & _ & Hvel). 
  assert (X := level_settings r hw mem all s _ H n Hn d Hd Hon remapping_all (cc_all 78 W3) (raw_all W1) edits_all stores_all (drums_all D N)).
  cbv zeta in X. rewrite Hc, settings_note, Hvel in X. exact (X N (sm_all W6)).
Qed.
End Note.

(** ** Notes that must be heard *)
Lemma start_calls_plain m c p v d : ~ In DFmInit (start_calls m c p v d).
Proof.
  unfold start_calls, sync_calls. intros X. repeat (apply in_app_or in X as [X|X]); try (destruct X as [X|[]]; discriminate X);
    match type of X with In _ (if ?b then _ else _) => destruct b end; destruct X as [X|[]] || destruct X; discriminate X.
Qed.
(** Without the DAC no message is beyond the samples. *)
Lemma no_dac_samples op s s' o : (forall j d, dev_at s j d -> no_dac d) -> mop_ok op -> ~ is_cc 78 op -> midi_ok s -> steps s op s' o -> ~ Exists beyond_samples o.
Proof.
  intros N Ho C Hs E X.
  assert (Y : (forall j d, zget (md_dev s') j = Some d -> no_dac d) /\ ~ Exists beyond_samples o).
  { assert (Z := moves_inv (fun t c => t \/ beyond_samples c) (Some op) (fun _ => True) (fun l t => (forall j d, zget l j = Some d -> no_dac d) /\ ~ t)).
    assert (K : forall l t, fold_left (fun t c => t \/ beyond_samples c) l t <-> t \/ Exists beyond_samples l).
    { induction l as [|x l IH]; intros t; cbn [fold_left]; [rewrite Exists_nil; tauto|]. rewrite IH, Exists_cons. tauto. }
    destruct (Z) with (l := md_dev s) (cs := o) (l' := md_dev s') (t := False) as [Z1 Z2].
    - clear -C. intros l t j d cs d' [Hi Ht] Hj A _. split.
      + intros i x Hx. destruct (Z.eq_dec i j) as [->|Nk]; [|rewrite zget_zset_other in Hx by auto; exact (Hi i x Hx)].
        rewrite zget_zset_same in Hx by exact (zget_Some _ _ _ Hj). injection Hx as <-. exact (atom_no_dac _ _ _ _ _ (fun B => C (because_some _ _ B)) A (Hi j d Hj)).
      + assert (Nd := Hi j d Hj). unfold no_dac in Nd.
        assert (NB : forall q x y z, ~ beyond_samples (DNoteOn (d_ops d) q x y z)) by (intros q x y z (a & b & e & f & [= E1 E2 E3 E4 E5] & _); contradiction).
        assert (NO : forall c, (forall a b e f g, c <> DNoteOn a b e f g) -> ~ beyond_samples c) by (intros c Hc (a & b & e & f & -> & _); eapply Hc; reflexivity).
        destruct A; try exact Ht; cbn [fold_left]; try (intros [?|F]; [tauto|]; revert F; solve [apply NB|apply NO; discriminate]).
        unfold press_calls. destruct (back c d); cbn [fold_left Datatypes.app]; intros F; revert F; intuition (try (eapply NB; eassumption)); try (eapply NO; [|eassumption]; discriminate).
    - clear. intros l t c Pc _ [Hi Ht]. split; [exact Hi|]. intros [F|(a & b & e & f & -> & _)]; [exact (Ht F)|]. destruct Pc as [Pc _]; discriminate Pc.
    - exact (step_moves op s s' o Ho Hs E).
    - apply Forall_forall. intros; exact Logic.I.
    - split; [exact N|tauto].
    - split; [exact Z1|]. intros Q. apply Z2, K. right. exact Q. }
  exact (proj2 Y X).
Qed.

(** A history without the DAC and without odd envelopes never faults. *)
Theorem history_dacless r hw mem ops : rom_ok r -> mem_ok mem -> Forall aop_ok ops -> without (is_cc 78) ops -> without odd_envelope ops ->
  exists s tr, history r hw mem ops s tr.
Proof.
  intros Hr Hm Ho W1 W2. destruct (history_total r hw mem ops Hr Hm Ho) as [H|(a & op & b & s & tr & -> & H & X)]; [exact H|exfalso].
  destruct (history_played _ _ _ _ _ _ H) as ((Hs & _) & cs & B & _).
  apply Forall_app in Ho as [_ Ho]. apply Forall_inv in Ho.
  assert (O : mop_ok (message op)) by (destruct op; [exact Ho|exact Logic.I]).
  assert (C : ~ is_cc 78 (message op)) by (destruct op as [m|]; [apply W1, in_or_app; right; left; reflexivity|intros (x & y & [=])]).
  destruct X as [[_ (s' & o & E & X)]|[_ X]].
  - revert X. apply (no_dac_samples (message op) (a_midi s) s' o); [|exact O|exact C|exact Hs|exact E].
    apply (no_dac_boot _ _ _ B). apply Forall_forall. intros m Hin.
    apply (plain_messages (is_cc 78) a (proj1 (cc_plain 78)) (proj2 (cc_plain 78))); [|exact Hin]. intros x Hx. apply W1, in_or_app. left. exact Hx.
  - destruct op as [m|]; [|destruct X as (x & [=] & _)]. eapply W2; [|exact X]. apply in_or_app. right. left. reflexivity.
Qed.

(** Static mode: a note on one of the first six channels is heard there. *)
Theorem note_heard r hw mem ops c p v s0 tr0 : history r hw mem ops s0 tr0 -> 0 <= c < 6 -> MidiSpec.seven p -> 1 <= v <= 127 ->
  without remaps ops -> without (is_cc 78) ops -> tn_glide (tuned (map message ops)) c = false ->
  (length (filter (fun k => Z.eqb (fst k) c) (held (map message ops))) < 10)%nat ->
  0 <= bent (map message ops) c p -> 0 <= pitched (map message ops) c p -> 11 <= pitched (map message ops) c p / 100 <= 106 ->
  exists s o, history r hw mem (ops ++ [AMsg (MNoteOn c p v)]) s (tr0 ++ o) /\ key_state o c = Some true.
Proof.
  intros H0 Hc Hp Hv W1 W2 G K L1 L2 L3. assert (H' := H0). destruct H' as (Hr & Hm & Ho & E0).
  assert (Om : mop_ok (MNoteOn c p v)) by (cbn; unfold is_chan, MidiSpec.seven in *; lia).
  destruct (history_played _ _ _ _ _ _ H0) as (Hi & cs & B & P). assert (Hi' := Hi). destruct Hi' as (Hs & Hdi & Hg).
  assert (ND : forall j d, dev_at (a_midi s0) j d -> no_dac d).
  { apply (no_dac_boot _ _ _ B). apply Forall_forall. intros m Hin. exact (plain_messages (is_cc 78) ops (proj1 (cc_plain 78)) (proj2 (cc_plain 78)) W2 m Hin). }
  assert (S : static_map (a_midi s0)).
  { apply (static_boot _ _ _) with (2 := B). apply Forall_forall. intros m Hin. apply (plain_messages remaps ops); [| |exact W1|exact Hin].
    - intros [(a & b & [=])|[(a & [=])|[(a & [=])|(t & [=])]]].
    - intros [(a & b & [=])|[(a & [=])|[(a & [=])|(t & [=])]]]. }
  destruct (app_step_ok r Hr (AMsg (MNoteOn c p v)) s0 Hi Om) as [(s & o & so & po & E & _)|[[_ (s' & o & E & X)]|[_ X]]].
  2:{ exfalso. revert X. apply (no_dac_samples (MNoteOn c p v) (a_midi s0) s' o ND Om); [intros (x & y & [=])|exact Hs|exact E]. }
  2:{ destruct X as (x & [=] & _). }
  assert (H := history_snoc _ _ _ _ (AMsg (MNoteOn c p v)) _ _ _ _ H0 Om E). exists s, o. split; [exact H|].
  destruct (history_last _ _ _ _ _ _ _ _ _ H0 H) as (_ & cs1 & St & Pa).
  destruct (ok_ch_get (a_midi s0) c Hs ltac:(unfold is_chan; lia)) as (m0 & Hm0 & Hok0).
  destruct (zget_in_range (md_dev (a_midi s0)) c) as [d Hd]; [destruct Hs as [-> _]; lia|].
  assert (Po : m_porta m0 = false).
  { destruct (tune_boot _ _ _ B) as [_ (_ & T)]. destruct (T c m0 Hm0) as [T1 _]. rewrite T1. exact G. }
  assert (Kl : (length (keys (m_np m0)) < 10)%nat).
  { assert (X := held_stack _ _ _ B c m0 Hm0). unfold held_on in X. rewrite map_length in X. change (held (MCallback true :: map message ops)) with (held (map message ops)) in X. lia. }
  destruct (static_starts _ c p v _ _ m0 d Hs ltac:(unfold is_chan; lia) Hp ltac:(lia) S Hd Hm0 Kl Po St) as (st & E1).
  assert (Ops : d_ops d = VFm /\ d_num d = c).
  { destruct (ok_dev _ _ _ Hs Hd) as [Hdo _]. destruct Hdo as (Sh & _). destruct Sh as [S1 _]. destruct (S1 ltac:(lia)) as [S2 [S3|[_ S3]]]; [auto|]. exfalso. exact (ND c d Hd S3). }
  assert (Hs1 := step_ok _ _ _ _ Hs Om St). destruct Hs1 as [_ Hc1].
  assert (NE : cs1 <> []) by (rewrite E1; unfold start_calls; destruct (_ && _); discriminate).
  destruct (note_calls _ _ _ _ _ _ Hs Om ltac:(lia) St NE) as (i & d1 & m & _ & _ & Hok & _ & E2 & Hch & _).
  assert (NF : ~ In DFmInit cs1) by (rewrite E1; apply start_calls_plain).
  assert (V := perform_all_view r Hr _ c _ Hc _ _ _ _ _ Hdi Hg Hc1 NF Pa (cv_now_holds c (a_dev s0))). cbn [Datatypes.app] in V.
  assert (Q : exists ce, last cs1 (DChange 0 0 0 0) = DNoteOn VFm c (pitched (map message ops) c p / 100) ce v).
  { assert (B1 : boots_to (MCallback true :: map message (ops ++ [AMsg (MNoteOn c p v)])) (a_midi s) (cs ++ cs1)).
    { rewrite map_app. apply (boots_snoc (MCallback true :: map message ops) (MNoteOn c p v) _ _ _ _ B Om St). }
    destruct (note_eff ops c p v s d1 m _ Hch Hok Hp B1 L1 L2) as [F1 _].
    assert (Y1 : last cs1 (DChange 0 0 0 0) = DNoteOn (d_ops d1) (d_num d1) (pc_pitch (eff m (started m c p d1))) (pc_cents (eff m (started m c p d1))) v)
      by (rewrite E2, start_calls_split, last_last; reflexivity).
    assert (Y2 : exists q ce, last cs1 (DChange 0 0 0 0) = DNoteOn VFm c q ce v).
    { rewrite E1, start_calls_split, last_last. cbn [d_ops d_num d_set_glide]. destruct Ops as [-> ->]. eauto. }
    destruct Y2 as (q & ce & Y2). rewrite Y1 in Y2. injection Y2 as Y3 Y4 Y5 Y6. rewrite Y1, Y3, Y4, F1. eauto. }
  destruct Q as (ce & Q). rewrite E2, start_calls_split, last_last in Q. rewrite E2, start_calls_split, Q, fold_left_app in V. cbn [fold_left] in V.
  fold (noted r c (fold_left (cv_step r c) (tuneup m c p d1) (cv_now c (a_dev s0))) (pitched (map message ops) c p / 100) ce v) in V.
  rewrite noted_eq in V by (unfold DevSpec.playable; apply andb_true_intro; split; apply Z.leb_le; lia). cbv zeta in V.
  destruct (tuneup_view r c m c p d1 (cv_now c (a_dev s0))) as (_ & T2 & _).
  destruct V as (_ & _ & _ & (_ & _ & _ & V) & _). cbn [v_raw v_key cv_sv] in V. apply V. rewrite T2. reflexivity.
Qed.

(** ** Pitch bend *)
Definition off_voice (n : Z) (c : dcall) : Prop := match c with DPitch VFm m _ _ => m <> n | DPitch _ _ _ _ => True | _ => False end.
Lemma cv_off_voice r n w c : off_voice n c -> cv_sv (cv_step r n w c) = cv_sv w.
Proof.
  intros O. destruct c; try contradiction. destruct v; cbn [cv_step cv_sops fold_left cv_sv]; try reflexivity. cbn in O. cbn [sv_step]. destruct (Z.eqb_spec num n); [contradiction|reflexivity].
Qed.
Lemma cv_off_voices r n cs : forall w, Forall (off_voice n) cs -> cv_sv (fold_left (cv_step r n) cs w) = cv_sv w.
Proof. induction cs as [|c t IH]; intros w F; [reflexivity|]. cbn [fold_left]. rewrite (IH _ (Forall_inv_tail F)). apply cv_off_voice, (Forall_inv F). Qed.
Lemma eff_total m d : 0 <= d_bend d < 16384 -> MidiSpec.seven (pc_pitch (m_range m)) -> MidiSpec.seven (pc_cents (m_range m)) ->
  let y := 100 * d_pitch d + d_cents d + bend_cents (d_bend d) (100 * pc_pitch (m_range m) + pc_cents (m_range m)) in
  0 <= y < 25600 -> 0 <= y + m_fine m < 25600 ->
  pc_pitch (eff m d) = (y + m_fine m) / 100 /\ pc_cents (eff m d) = (y + m_fine m) mod 100.
Proof.
  cbv zeta. intros Hb R1 R2 L1 L2. unfold eff. set (rg := total (m_range m)). unfold MidiSpec.seven in *.
  assert (Erg : 100 * pc_pitch (m_range m) + pc_cents (m_range m) = rg) by (unfold rg, total; lia). rewrite Erg in *.
  assert (E2 := pc_bend_exact (d_pitch d) (d_cents d) (d_bend d) (m_range m) ltac:(lia) ltac:(fold rg; lia) ltac:(fold rg; lia)). fold rg in E2.
  destruct (pc_shift_exact (pc_bend (d_pitch d) (d_cents d) (d_bend d) (m_range m)) (m_fine m)) as (E3 & E4 & E5); [rewrite E2; lia|].
  set (y := 100 * d_pitch d + d_cents d + bend_cents (d_bend d) rg) in *. set (z := pc_shift _ _) in *.
  assert (X : y + m_fine m = pc_cents z + pc_pitch z * 100) by (unfold total in E3; unfold total in E2; rewrite E2 in E3; unfold y; lia).
  rewrite X, Z.div_add, Z.mod_add, Z.div_small, Z.mod_small by lia. lia.
Qed.

Theorem bend_heard r hw mem ops c b s0 tr0 s o n d :
  history r hw mem ops s0 tr0 -> history r hw mem (ops ++ [AMsg (MBend c b)]) s (tr0 ++ o) ->
  0 <= n < 6 -> dev_at (a_midi s0) n d -> d_on d = true -> d_midi d = c ->
  without raw_write ops -> without remapping ops -> without (is_cc 78) ops -> b <> st_bend (settings (map message ops) c) ->
  let t := settings (map message ops) c in
  let y := 100 * d_pitch d + d_cents d + bend_cents b (100 * st_semis t + st_cents t) in
  let x := y + tn_fine (tuned (map message ops)) c in
  0 <= y < 25600 -> 0 <= x < 25600 ->
  key_state (tr0 ++ o) n = key_state tr0 n /\ chip_freq (tr0 ++ o) n = Some (fm_note r (x / 100) (x mod 100)).
Proof.
  intros H0 H Hn Hd Hon Hc W1 W2 W3 Nb. cbv zeta. intros L1 L2. assert (H' := H0). destruct H' as (Hr & Hm & _ & _).
  destruct (history_last _ _ _ _ _ _ _ _ _ H0 H) as (Ho & cs1 & St & Pa).
  destruct (history_played _ _ _ _ _ _ H0) as ((Hs & Hdi & Hg) & cs & B & P).
  destruct (step_ok _ _ _ _ Hs Ho St) as [_ Hc1].
  destruct Ho as (Hcc & Hb). destruct (ok_ch_get _ _ Hs Hcc) as (m & Hch & Hok). assert (Hok' := Hok). destruct Hok' as (_ & _ & _ & _ & _ & R1 & R2 & _).
  assert (St' := St). unfold steps in St'. cbn [midi_step] in St'. rewrite (midi_pitch_bend_eq _ _ _ m Hch) in St'. injection St' as _ E1.
  destruct (settings_boot _ _ _ B) as [_ S]. destruct (S c m Hch) as (_ & _ & _ & S4 & S5 & S6 & _). rewrite settings_messages in S4, S5, S6.
  destruct (tune_boot _ _ _ B) as [_ (_ & T)]. destruct (T c m Hch) as [_ T2]. change (tuned (MCallback true :: map message ops)) with (tuned (map message ops)) in T2.
  assert (ND : no_dac d).
  { apply (no_dac_boot _ _ _ B) with (j := n) (d := d); [|exact Hd]. apply Forall_forall. intros x Hin. exact (plain_messages (is_cc 78) ops (proj1 (cc_plain 78)) (proj2 (cc_plain 78)) W3 x Hin). }
  assert (R : Forall (fun m => ~ remapping m) (MCallback true :: map message ops)).
  { apply Forall_forall. intros x Hin. exact (plain_messages remapping ops (proj1 remapping_plain) (proj2 remapping_plain) W2 x Hin). }
  assert (Db : d_bend d = st_bend (settings (map message ops) c)).
  { destruct (MidiCarryProofs.sounding_settings _ _ _ n d R B Hd Hon) as (_ & _ & _ & X); [rewrite Hc; exact Hcc|]. rewrite Hc, settings_messages in X. exact X. }
  assert (Sh : forall j e, zget (md_dev (a_midi s0)) j = Some e -> d_ops e = VFm -> d_num e = j).
  { intros j e He Oe. destruct (ok_dev _ _ _ Hs He) as [[(S1 & S2 & S3) _] Hj]. destruct (Z_lt_dec j 6); [apply S1; lia|].
    destruct (Z_lt_dec j 10); [destruct S2 as [_ S2]; [lia|congruence]|]. destruct S3 as [_ S3]; [lia|congruence]. }
  assert (Ops : d_ops d = VFm /\ d_num d = n).
  { destruct (ok_dev _ _ _ Hs Hd) as [[(S1 & _) _] _]. destruct (S1 ltac:(lia)) as [S2 [S3|[_ S3]]]; [auto|contradiction]. }
  assert (Sp : exists l1 l2, md_dev (a_midi s0) = l1 ++ d :: l2 /\ Z.of_nat (length l1) = n).
  { unfold dev_at in Hd. assert (Rn := zget_Some _ _ _ Hd). unfold zget in Hd. destruct (Z.ltb_spec n 0); [lia|].
    apply nth_error_split in Hd as (l1 & l2 & E & L). exists l1, l2. split; [exact E|lia]. }
  destruct Sp as (l1 & l2 & Ed & Ll).
  set (h := fun d0 : dev => if d_on d0 then if d_bend d0 =? b then [] else [DPitch (d_ops d0) (d_num d0) (pc_pitch (eff (m_set_bend m b) (d_set_bend d0 b))) (pc_cents (eff (m_set_bend m b) (d_set_bend d0 b)))] else []) in *.
  assert (OV : forall e, In e l1 \/ In e l2 -> Forall (off_voice n) (calls_at c h e)).
  { intros e He. assert (X : d_ops e = VFm -> d_num e <> n).
    { intros Oe. destruct He as [He|He]; apply In_nth_error in He as [k Hk].
      - assert (Kl : (k < length l1)%nat) by (apply nth_error_Some; congruence).
        assert (Z : zget (md_dev (a_midi s0)) (Z.of_nat k) = Some e).
        { rewrite Ed. unfold zget. destruct (Z.ltb_spec (Z.of_nat k) 0); [lia|]. rewrite Nat2Z.id, nth_error_app1 by exact Kl. exact Hk. }
        rewrite (Sh _ _ Z Oe). lia.
      - assert (Z : zget (md_dev (a_midi s0)) (n + 1 + Z.of_nat k) = Some e).
        { rewrite Ed. unfold zget. destruct (Z.ltb_spec (n + 1 + Z.of_nat k) 0); [lia|]. rewrite nth_error_app2 by lia.
          replace (Z.to_nat (n + 1 + Z.of_nat k) - length l1)%nat with (Datatypes.S k) by lia. exact Hk. }
        rewrite (Sh _ _ Z Oe). lia. }
    unfold calls_at, h. destruct (d_midi e =? c); [|constructor]. destruct (d_on e); [|constructor]. destruct (d_bend e =? b); [constructor|].
    constructor; [|constructor]. cbn. destruct (d_ops e); auto. }
  assert (NF : ~ In DFmInit cs1).
  { rewrite <- E1. intros X. apply in_flat_map in X as (e & _ & X). unfold calls_at, h in X. destruct (d_midi e =? c); [|destruct X]. destruct (d_on e); [|destruct X].
    destruct (d_bend e =? b); [destruct X|]. destruct X as [X|[]]. discriminate X. }
  assert (V := played_view r Hr mem Hm n cs _ _ Hn P (boots_calls_ok _ _ _ B)).
  assert (V1 := perform_all_view r Hr _ n _ Hn _ _ _ _ _ Hdi Hg Hc1 NF Pa V).
  set (w0 := fold_left (cv_step r n) (skipn 4 cs) (cv0 r)) in *.
  assert (Raw : v_raw (cv_sv w0) = false) by exact (cv_raw_free_all r n _ (cv0 r) (history_not_raw _ _ _ B W1) eq_refl).
  destruct V as (_ & _ & _ & (_ & _ & _ & V) & _). destruct (V Raw) as [VK _].
  destruct V1 as (_ & _ & _ & (_ & _ & _ & V1) & _).
  assert (Ecs : cs1 = flat_map (calls_at c h) l1 ++ calls_at c h d ++ flat_map (calls_at c h) l2) by (rewrite <- E1, Ed, flat_map_app; reflexivity).
  rewrite Ecs, !fold_left_app in V1.
  assert (F1 : Forall (off_voice n) (flat_map (calls_at c h) l1)) by (apply Forall_flat_map, Forall_forall; intros e He; apply OV; left; exact He).
  assert (F2 : Forall (off_voice n) (flat_map (calls_at c h) l2)) by (apply Forall_flat_map, Forall_forall; intros e He; apply OV; right; exact He).
  set (w1 := fold_left (cv_step r n) (flat_map (calls_at c h) l1) w0) in *. assert (K1 : cv_sv w1 = cv_sv w0) by exact (cv_off_voices r n _ w0 F1).
  rewrite (cv_off_voices r n _ _ F2) in V1.
  assert (Ec : calls_at c h d = [DPitch VFm n (pc_pitch (eff (m_set_bend m b) (d_set_bend d b))) (pc_cents (eff (m_set_bend m b) (d_set_bend d b)))]).
  { unfold calls_at, h. destruct Ops as [-> ->]. rewrite Hc, Hon, Z.eqb_refl. destruct (Z.eqb_spec (d_bend d) b); [congruence|reflexivity]. }
  rewrite Ec in V1. cbn [fold_left cv_step cv_sops cv_sv sv_step] in V1. rewrite Z.eqb_refl, K1 in V1. cbn [v_raw v_key v_frq] in V1. destruct (V1 Raw) as [V2 V3].
  split; [congruence|]. rewrite V3, octave_key.
  assert (Q := eff_total (m_set_bend m b) (d_set_bend d b) Hb R1 R2). cbn [d_pitch d_cents d_bend d_set_bend m_range m_set_bend m_fine] in Q. cbv zeta in Q.
  rewrite S5, S6, T2 in Q. destruct (Q L1 L2) as [Q1 Q2]. rewrite Q1, Q2. reflexivity.
Qed.
(** Voices that are silent or of another channel keep their pitch. *)
Theorem bend_others r hw mem ops c b s0 tr0 s o n d :
  history r hw mem ops s0 tr0 -> history r hw mem (ops ++ [AMsg (MBend c b)]) s (tr0 ++ o) ->
  0 <= n < 6 -> dev_at (a_midi s0) n d -> d_on d = false \/ d_midi d <> c -> without raw_write ops ->
  key_state (tr0 ++ o) n = key_state tr0 n /\ chip_freq (tr0 ++ o) n = chip_freq tr0 n.
Proof.
  intros H0 H Hn Hd Hoff W1. assert (H' := H0). destruct H' as (Hr & Hm & _ & _).
  destruct (history_last _ _ _ _ _ _ _ _ _ H0 H) as (Ho & cs1 & St & Pa).
  destruct (history_played _ _ _ _ _ _ H0) as ((Hs & Hdi & Hg) & cs & B & P).
  destruct (step_ok _ _ _ _ Hs Ho St) as [_ Hc1]. destruct Ho as (Hcc & Hb). destruct (ok_ch_get _ _ Hs Hcc) as (m & Hch & Hok).
  assert (St' := St). unfold steps in St'. cbn [midi_step] in St'. rewrite (midi_pitch_bend_eq _ _ _ m Hch) in St'. injection St' as _ E1.
  assert (OV : Forall (off_voice n) cs1 /\ ~ In DFmInit cs1).
  { rewrite <- E1. split.
    - apply Forall_flat_map, Forall_forall. intros e He. apply In_zget in He as [j Hj]. unfold calls_at.
      destruct (Z.eqb_spec (d_midi e) c) as [Ec|]; [|constructor]. destruct (d_on e) eqn:Eo; [|constructor]. destruct (d_bend e =? b); [constructor|].
      constructor; [|constructor]. cbn. destruct (d_ops e) eqn:Oe; auto. intros En. 
      assert (Ej : j = n).
      { destruct (ok_dev _ _ _ Hs Hj) as [[(S1 & S2 & S3) _] Hj']. destruct (Z_lt_dec j 6) as [L|L]; [destruct (S1 L); lia|].
        destruct (Z_lt_dec j 10); [destruct S2 as [_ S2]; [lia|congruence]|]. destruct S3 as [_ S3]; [lia|congruence]. }
      subst j. unfold dev_at in Hd. rewrite Hd in Hj. injection Hj as ->. destruct Hoff; congruence.
    - intros X. apply in_flat_map in X as (e & _ & X). unfold calls_at in X. destruct (d_midi e =? c); [|destruct X]. destruct (d_on e); [|destruct X].
      destruct (d_bend e =? b); [destruct X|]. destruct X as [X|[]]. discriminate X. }
  destruct OV as [OV NF].
  assert (V := played_view r Hr mem Hm n cs _ _ Hn P (boots_calls_ok _ _ _ B)).
  assert (V1 := perform_all_view r Hr _ n _ Hn _ _ _ _ _ Hdi Hg Hc1 NF Pa V).
  assert (Raw := cv_raw_free_all r n _ (cv0 r) (history_not_raw _ _ _ B W1) eq_refl).
  destruct V as (_ & _ & _ & (_ & _ & _ & V) & _). destruct V1 as (_ & _ & _ & (_ & _ & _ & V1) & _). rewrite (cv_off_voices r n _ _ OV) in V1.
  destruct (V Raw) as [K1 K2]. destruct (V1 Raw) as [K3 K4]. split; congruence.
Qed.
