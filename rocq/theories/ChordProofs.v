(** Chords in dynamic mode: from the keys to the voices. *)
From Verif Require Import Base BaseLemmas PitchModel PitchSpec PitchProofs NotePriorityModel SynthModel SynthSpec SynthProofs SynthMirrorProofs SynthClaimsProofs SynthViewProofs.
From Verif Require Import MidiModel MidiSpec MidiProofs MidiOkProofs MidiEqProofs MidiEffectProofs MidiCallProofs MidiNoteProofs MidiChanProofs MidiTuneProofs MidiDevProofs MidiInvProofs MidiPlaceProofs MidiClaimsProofs MidiHistProofs.
From Verif Require Import PsgModel DevModel DevSpec DevProofs AppModel AppSpec AppProofs AppTraceProofs AppClaimsProofs AppViewProofs AppKeyProofs SoundSpec AppSoundProofs AppToneProofs AppNoteProofs GlideProofs ChordSpec.

Definition key_of (d : dev) : Z * Z := (d_midi d, d_pitch d).
Record chordal (h : list (Z * Z)) (g : Z -> Z) (s : midi) : Prop := mkChordal {
  cd_dyn : md_dyn s = true;
  cd_stick : md_stick s = false;
  cd_nogm : md_nogm s = false;
  cd_chan : forall c m, ch_at s c m -> m_porta m = false /\ m_sel m = g c /\ forall q, In q (keys (m_np m)) -> In (c, q) h;
  cd_dev : forall i d, dev_at s i d -> d_glide d = 0 /\ (d_on d = true -> i < 10 /\ d_cents d = 0 /\ In (key_of d) h /\ is_chan (d_midi d) /\
             forall m, ch_at s (d_midi d) m -> d_bend d = m_bend m);
  cd_held : forall x, In x h -> exists i d, dev_at s i d /\ d_on d = true /\ key_of d = x;
  cd_one : forall i j d e, dev_at s i d -> dev_at s j e -> d_on d = true -> d_on e = true -> key_of d = key_of e -> i = j;
  cd_drum : forall i d, dev_at s i d -> d_on d = true -> d_midi d = 9 -> i < 6 }.
(** What the chip is told about the voice of a sounding key. *)
Definition says (r : rom) (n : Z) (vel : Z * Z -> Z) (s : midi) (w : cview) : Prop := forall d m, dev_at s n d -> d_on d = true -> ch_at s (d_midi d) m ->
  v_key (cv_sv w) = Some true /\ (d_midi d <> 9 -> v_frq (cv_sv w) = tune r m d) /\ cv_vel w = vel (key_of d).
Definition says_on (r : rom) (n : Z) (s s' : midi) (cs : list dcall) : Prop := forall vel w, says r n vel s w -> says r n vel s' (fold_left (cv_step r n) cs w).
Definition only_fm (s : midi) : Prop := forall i d, dev_at s i d -> d_on d = true -> i < 6.

(** ** Messages that leave the notes alone *)
Definition same_note (d d' : dev) : Prop := d_on d' = d_on d /\ d_midi d' = d_midi d /\ d_pitch d' = d_pitch d /\ d_cents d' = d_cents d /\ d_glide d' = d_glide d.
Lemma keep_chord h g g' f s s' : chordal h g s -> md_dyn s' = md_dyn s -> md_stick s' = md_stick s -> md_nogm s' = md_nogm s ->
  (forall c m', ch_at s' c m' -> exists m, ch_at s c m /\ m_porta m' = m_porta m /\ (m_sel m = g c -> m_sel m' = g' c) /\ m_np m' = m_np m) ->
  md_dev s' = map f (md_dev s) -> (forall d, same_note d (f d)) ->
  (forall d m', d_on d = true -> ch_at s' (d_midi d) m' -> (forall m, ch_at s (d_midi d) m -> d_bend d = m_bend m) -> d_bend (f d) = m_bend m') ->
  chordal h g' s' /\ (only_fm s -> only_fm s').
Proof.
  intros J E1 E2 E3 C D S B. destruct J as [J1 J2 J3 J4 J5 J6 J7 J8].
  assert (DA : forall i d', dev_at s' i d' -> exists d, dev_at s i d /\ d' = f d).
  { intros i d' Hd. unfold dev_at in Hd. rewrite D in Hd. apply dev_map in Hd. exact Hd. }
  assert (DB : forall i d, dev_at s i d -> dev_at s' i (f d)).
  { intros i d Hd. unfold dev_at in *. rewrite D, zget_map, Hd. reflexivity. }
  assert (KO : forall d, key_of (f d) = key_of d) by (intros d; unfold key_of; destruct (S d) as (_ & -> & -> & _); reflexivity).
  split; [constructor; try congruence|].
  - intros c m' Hm'. destruct (C c m' Hm') as (m & Hm & P1 & P2 & P3). destruct (J4 c m Hm) as (Q1 & Q2 & Q3). rewrite P1, P3. auto.
  - intros i d' Hd'. destruct (DA _ _ Hd') as (d & Hd & ->). destruct (J5 i d Hd) as [G O]. assert (Sd := S d). destruct Sd as (S1 & S2 & S3 & S4 & S5).
    rewrite S5, S1, S4, KO, S2. split; [exact G|]. intros On. destruct (O On) as (O1 & O2 & O3 & O4 & O5). repeat (split; [assumption|]). intros m Hm. apply B; assumption.
  - intros x Hx. destruct (J6 x Hx) as (i & d & Hd & On & K). exists i, (f d). split; [apply DB, Hd|]. rewrite KO. split; [|exact K]. destruct (S d) as [-> _]. exact On.
  - intros i j d' e' Hd He On Oe K. destruct (DA _ _ Hd) as (d & Hd0 & ->). destruct (DA _ _ He) as (e & He0 & ->). rewrite !KO in K.
    apply (J7 i j d e); try assumption; [destruct (S d) as [<- _]; exact On|destruct (S e) as [<- _]; exact Oe].
  - intros i d' Hd On. destruct (DA _ _ Hd) as (d & Hd0 & ->). destruct (S d) as (S1 & S2 & _). rewrite S1 in On. rewrite S2. exact (J8 i d Hd0 On).
  - intros F i d' Hd On. destruct (DA _ _ Hd) as (d & Hd0 & ->). apply (F i d Hd0). destruct (S d) as [<- _]. exact On.
Qed.
Definition setting_call (x : dcall) : Prop := match x with DVolume _ _ _ | DPan _ _ _ | DProgram _ _ _ | DChange _ _ _ _ => True | _ => False end.
Lemma spares_setting r n x : setting_call x -> spares r n [x].
Proof.
  intros Q w. destruct x as [? ? ? ? ?|? ? ?|k x y|k x y|? ?|k x y|k x y z|? ?|?|?|? ?|?|? ?|?|? ?|?| | | | | |? ? ? ?|? ?]; try contradiction; [destruct k..|];
    cbn [fold_left cv_step cv_sops]; try (repeat split; reflexivity);
    destruct (Z.eqb_spec x n) as [->|Hx]; try rewrite andb_true_r; try rewrite andb_false_r; try destruct (cv_user w); cbn [cv_sv sv_step]; unfold sv_edit; cbn [v_key v_frq v_raw fold_left sv_step];
    rewrite ?Z.eqb_refl; try (destruct (Z.eqb_spec x n); [contradiction|]); repeat split; reflexivity.
Qed.
Lemma keep_says r n f s s' cs : Forall setting_call cs -> md_dev s' = map f (md_dev s) -> (forall d, same_note d (f d) /\ d_bend (f d) = d_bend d) ->
  (forall c m', ch_at s' c m' -> exists m, ch_at s c m /\ m_range m' = m_range m /\ m_fine m' = m_fine m) -> says_on r n s s' cs.
Proof.
  intros F D S C vel w H d' m' Hd' On Hm'. unfold dev_at in Hd'. rewrite D in Hd'. apply dev_map in Hd' as (d & Hd & ->). destruct (S d) as ((S1 & S2 & S3 & S4 & S5) & S6).
  rewrite S2 in Hm'. destruct (C _ _ Hm') as (m & Hm & R1 & R2). rewrite S1 in On. destruct (H d m Hd On Hm) as (K1 & K2 & K3).
  assert (X : spares r n cs) by (apply spares_all; intros x Hx; apply spares_setting; rewrite Forall_forall in F; apply F, Hx).
  destruct (X w) as (-> & -> & _ & ->). split; [exact K1|]. split; [intros N9; rewrite K2 by (rewrite <- S2; exact N9); unfold tune, eff; rewrite S3, S4, S6, R1, R2; reflexivity|].
  unfold key_of in *. rewrite S2, S3. exact K3.
Qed.
Lemma zset_back (s s' : midi) c m m' : ch_at s c m -> md_ch s' = zset (md_ch s) c m' -> forall b x, ch_at s' b x -> b = c /\ x = m' \/ b <> c /\ ch_at s b x.
Proof.
  intros Hm E b x Hx. unfold ch_at in *. rewrite E in Hx. destruct (Z.eq_dec b c) as [->|N].
  - rewrite zget_zset_same in Hx by (eapply zget_Some; exact Hm). injection Hx as <-. auto.
  - rewrite zget_zset_other in Hx by congruence. auto.
Qed.
Lemma at_same c f : (forall d, same_note d (f d)) -> forall d, same_note d (at_chan c f d).
Proof. intros H d. unfold at_chan. destruct (_ =? _); [apply H|]. repeat split; reflexivity. Qed.
Lemma at_bend c f : (forall d, d_bend (f d) = d_bend d) -> forall d, d_bend (at_chan c f d) = d_bend d.
Proof. intros H d. unfold at_chan. destruct (_ =? _); [apply H|reflexivity]. Qed.
Lemma calls_setting c h l : (forall d x, In x (h d) -> setting_call x) -> Forall setting_call (flat_map (calls_at c h) l).
Proof.
  intros H. apply Forall_forall. intros x Hx. apply in_flat_map in Hx as (e & _ & Hx). unfold calls_at in Hx. destruct (_ =? _); [|destruct Hx]. exact (H e x Hx).
Qed.

(** A setting of one channel, the device channels adjusted by [f]. *)
Lemma set_chord h g g' f s s' c m m' cs : chordal h g s -> ch_at s c m ->
  s' = md_set_dev (md_set_ch s (zset (md_ch s) c m')) (map f (md_dev s)) ->
  m_porta m' = m_porta m -> m_np m' = m_np m -> m_bend m' = m_bend m -> m_range m' = m_range m -> m_fine m' = m_fine m ->
  (m_sel m = g c -> m_sel m' = g' c) -> (forall b, b <> c -> g' b = g b) ->
  (forall d, same_note d (f d) /\ d_bend (f d) = d_bend d) -> Forall setting_call cs ->
  (chordal h g' s' /\ (only_fm s -> only_fm s')) /\ forall r n, says_on r n s s' cs.
Proof.
  intros J Hm Es E1 E2 E3 E4 E5 E6 E7 S F.
  assert (Back := zset_back s s' c m m' Hm ltac:(rewrite Es; reflexivity)).
  split.
  - apply (keep_chord h g g' f s s' J); try (rewrite Es; reflexivity).
    + intros b x Hx. destruct (Back b x Hx) as [[-> ->]|[N Hb]]; [exists m; auto|]. exists x. rewrite (E7 b N). auto.
    + intros d. apply S.
    + intros d x On Hx Hb. destruct (S d) as [_ ->]. destruct (Back _ _ Hx) as [[Eq ->]|[N Hx']]; [rewrite E3; apply Hb; rewrite Eq; exact Hm|apply Hb, Hx'].
  - intros r n. apply (keep_says r n f); [exact F|rewrite Es; reflexivity|exact S|].
    intros b x Hx. destruct (Back b x Hx) as [[-> ->]|[N Hb]]; [exists m|exists x]; auto.
Qed.

Lemma chord_cc h g s c k v s' cs : midi_ok s -> is_chan c -> MidiSpec.seven v -> chordal h g s -> k = 7 \/ k = 10 \/ k = 86 ->
  steps s (MCc c k v) s' cs ->
  (chordal h (group_after g (MCc c k v)) s' /\ (only_fm s -> only_fm s')) /\ forall r n, says_on r n s s' cs.
Proof.
  intros Hs Hc Hv J Hk St. destruct (ok_ch_get _ _ Hs Hc) as (m & Hm & _). unfold steps in St; cbn [midi_step] in St.
  destruct (midi_cc_result _ _ _ _ m _ _ Hs Hc Hv Hm St) as (o' & R & ->). clear St.
  assert (Fc : forall o, Forall setting_call o -> Forall setting_call (o ++ (if md_cb s' then [DChange 2 c k v] else []))).
  { intros o Fo. apply Forall_app. split; [exact Fo|]. destruct (md_cb s'); repeat constructor. }
  destruct R as [m' Hf|Hk'|Hk'|Hk'|s1 Hk' E|Hk'|s1 o1 Hk' E|Hk' _|Hk' Hr|Hk'|o1 Hk' _|Hk'|devs o1 Hk' HH]; try (exfalso; clear -Hk Hk'; lia).
  - assert (E : k = 86 /\ m' = m_set_sel m (RANGE v 4)).
    { unfold cc_field in Hf. rewrite (cd_nogm _ _ _ J) in Hf. destruct Hk as [->|[->| ->]]; cbn in Hf; try discriminate. injection Hf as <-. auto. }
    destruct E as [-> ->]. cbn [group_after]. change (86 =? 86) with true. cbv iota.
    eapply (set_chord h g _ (fun d => d) s _ c m (m_set_sel m (RANGE v 4))); try reflexivity; try assumption.
    + rewrite map_id. destruct s; reflexivity.
    + intros _. rewrite set_at_same. cbn [m_sel m_set_sel]. unfold RANGE. change (Z.quot 128 4) with 32. apply Z.quot_div_nonneg; unfold MidiSpec.seven in Hv; lia.
    + intros b N. apply set_at_other, N.
    + intros d. repeat split; reflexivity.
    + apply Fc. constructor.
  - subst k. eapply (set_chord h g _ (at_chan c (fun d => d_set_vol d v)) s _ c m (m_set_vol m v)); try reflexivity; try assumption; try (intros; assumption).
    + intros d. split; [apply at_same; intros; repeat split; reflexivity|apply at_bend; reflexivity].
    + apply Fc, calls_setting. intros d x Hx. destruct (_ =? _); [destruct Hx|]. destruct Hx as [<-|[]]. exact Logic.I.
  - subst k. eapply (set_chord h g _ (at_chan c (fun d => d_set_pan d v)) s _ c m (m_set_pan m v)); try reflexivity; try assumption; try (intros; assumption).
    + intros d. split; [apply at_same; intros; repeat split; reflexivity|apply at_bend; reflexivity].
    + apply Fc, calls_setting. intros d x Hx. destruct (_ =? _); [destruct Hx|]. destruct Hx as [<-|[]]. exact Logic.I.
  - exfalso. destruct Hk' as [Hk'|[Hk'|[_ Hk']]]; [clear -Hk Hk'; lia|clear -Hk Hk'; lia|]. rewrite (cd_nogm _ _ _ J) in Hk'. discriminate.
  - exfalso. apply Hk'. cbn. clear -Hk. lia.
Qed.
Lemma chord_program h g s c p s' cs : midi_ok s -> is_chan c -> chordal h g s -> steps s (MProgram c p) s' cs ->
  (chordal h g s' /\ (only_fm s -> only_fm s')) /\ forall r n, says_on r n s s' cs.
Proof.
  intros Hs Hc J St. destruct (ok_ch_get _ _ Hs Hc) as (m & Hm & _). unfold steps in St; cbn [midi_step] in St.
  rewrite (midi_program_eq _ _ _ m Hm) in St. injection St as <- <-.
  eapply (set_chord h g _ (at_chan c (fun d => d_set_prog d p)) s _ c m (m_set_prog m p)); try reflexivity; try assumption; try (intros; assumption).
  - intros d. split; [apply at_same; intros; repeat split; reflexivity|apply at_bend; reflexivity].
  - apply Forall_app. split; [|destruct (md_cb s); repeat constructor]. apply calls_setting. intros d x Hx. destruct (_ =? _); [destruct Hx|]. destruct Hx as [<-|[]]. exact Logic.I.
Qed.
Lemma chord_frame h g s s' cs : midi_ok s -> chordal h g s -> steps s MTick s' cs ->
  (chordal h g s' /\ (only_fm s -> only_fm s')) /\ forall r n, says_on r n s s' cs.
Proof.
  intros Hs J St. unfold steps in St; cbn [midi_step] in St. rewrite (midi_tick_eq _ Hs) in St. injection St as <- <-.
  assert (T1 : map (tick_dev (md_ch s)) (md_dev s) = map (fun d => d) (md_dev s)).
  { apply map_ext. intros d. unfold tick_dev. destruct (zget (md_ch s) (d_midi d)) as [m|] eqn:E; [|reflexivity].
    destruct (cd_chan _ _ _ J _ m E) as [-> _]. rewrite andb_false_r. reflexivity. }
  assert (T2 : flat_map (tick_calls (md_ch s)) (md_dev s) = []).
  { assert (Z : forall d, tick_calls (md_ch s) d = []).
    { intros d. unfold tick_calls. destruct (zget (md_ch s) (d_midi d)) as [m|] eqn:E; [|reflexivity].
      destruct (cd_chan _ _ _ J _ m E) as [-> _]. rewrite andb_false_r. reflexivity. }
    clear T1. induction (md_dev s) as [|d t IH]; [reflexivity|]. cbn [flat_map]. rewrite Z. exact IH. }
  rewrite T1, T2. split.
  - apply (keep_chord h g g (fun d => d) s _ J); try reflexivity.
    + intros c m Hm. exists m. auto.
    + intros d. repeat split; reflexivity.
    + intros d m _ Hm H. apply H, Hm.
  - intros r n. apply (keep_says r n (fun d => d)); [constructor|reflexivity|intros d; repeat split; reflexivity|].
    intros c m Hm. exists m. auto.
Qed.
Lemma chord_bend h g s c b s' cs : midi_ok s -> is_chan c -> chordal h g s -> steps s (MBend c b) s' cs ->
  (chordal h g s' /\ (only_fm s -> only_fm s')) /\ forall r n, 0 <= n < 6 -> (forall d, dev_at s n d -> d_ops d = VFm) -> says_on r n s s' cs.
Proof.
  intros Hs Hc J St. destruct (ok_ch_get _ _ Hs Hc) as (m & Hm & _). unfold steps in St; cbn [midi_step] in St.
  rewrite (midi_pitch_bend_eq _ _ _ m Hm) in St. injection St as <- <-. set (f := at_chan c (fun d => if d_on d then d_set_bend d b else d)).
  set (s' := md_set_dev _ _). assert (Back := zset_back s s' c m (m_set_bend m b) Hm eq_refl).
  assert (Sf : forall d, same_note d (f d)).
  { apply at_same. intros d. destruct (d_on d); repeat split; reflexivity. }
  split.
  - apply (keep_chord h g g f s s' J); try reflexivity; try assumption.
    + intros a x Hx. destruct (Back a x Hx) as [[-> ->]|[N Hb]]; [exists m|exists x]; auto.
    + intros d x On Hx Hb. unfold f, at_chan. rewrite On. destruct (Back _ _ Hx) as [[-> ->]|[N Hx']]; [rewrite Z.eqb_refl; reflexivity|].
      destruct (Z.eqb_spec (d_midi d) c); [contradiction|]. apply Hb, Hx'.
  - intros r n Hn Ov vel w H d' x Hd' On Hx. unfold dev_at in Hd'. cbn [s' md_dev md_set_dev] in Hd'. apply dev_map in Hd' as (d & Hd & ->). fold f in On, Hx |- *.
    destruct (Sf d) as (S1 & S2 & S3 & S4 & S5). rewrite S1 in On. rewrite S2 in Hx. assert (KO : key_of (f d) = key_of d) by (unfold key_of; rewrite S2, S3; reflexivity).
    match goal with |- context[flat_map (calls_at c ?h0) _] => set (hh := h0) end.
    destruct (flat_split s n d (calls_at c hh) r (numbered_ok _ Hs) Hd) as (a & e & E & A & B).
    { intros y z Hz. unfold calls_at in Hz. destruct (_ =? c); [|destruct Hz]. unfold hh in Hz. destruct (d_on y); [|destruct Hz]. destruct (_ =? b); [destruct Hz|]. destruct Hz as [<-|[]]. reflexivity. }
    rewrite E. assert (Nu := numbered_ok _ Hs n d Hd (Ov d Hd)).
    destruct (Back _ _ Hx) as [[Eq ->]|[N Hx']].
    + assert (Hm' : ch_at s (d_midi d) m) by (rewrite Eq; exact Hm). destruct (H d m Hd On Hm') as (K1 & K2 & K3). rewrite KO.
      assert (Fd : f d = d_set_bend d b) by (unfold f, at_chan; rewrite Eq, Z.eqb_refl, On; reflexivity). rewrite Fd.
      unfold calls_at, hh. rewrite Eq, Z.eqb_refl, On. destruct (Z.eqb_spec (d_bend d) b) as [Eb|Eb].
      * assert (X : spares r n (a ++ [] ++ e)) by (apply spares_app; [exact A|exact B]). destruct (X w) as (-> & -> & _ & ->). split; [exact K1|]. split; [|exact K3]. intros N9. rewrite K2 by exact N9.
        unfold tune, eff. cbn [d_pitch d_cents d_bend d_set_bend m_range m_fine m_set_bend]. rewrite Eb. reflexivity.
      * rewrite (Ov d Hd), Nu. destruct (tunes_among r n a _ e _ A (tunes_one r n (m_set_bend m b) (d_set_bend d b)) B w) as (T1 & T2 & _ & T4).
        split; [exact (eq_trans T1 K1)|]. split; [intros _; exact T2|exact (eq_trans T4 K3)].
    + assert (Fd : f d = d) by (unfold f, at_chan; destruct (Z.eqb_spec (d_midi d) c); [contradiction|reflexivity]). rewrite Fd.
      unfold calls_at. destruct (Z.eqb_spec (d_midi d) c); [contradiction|]. destruct (H d x Hd On Hx') as (K1 & K2 & K3).
      assert (X : spares r n (a ++ [] ++ e)) by (apply spares_app; [exact A|exact B]). destruct (X w) as (-> & -> & _ & ->). auto.
Qed.

(** ** Releasing a key *)
Lemma count_two c l : forall i j d e, i <> j -> nth_error l i = Some d -> nth_error l j = Some e -> d_midi d = c -> d_midi e = c -> d_on d = true -> d_on e = true ->
  2 <= voice_count c true l.
Proof.
  induction l as [|x t IH]; intros i j d e N Hd He Md Me Od Oe; [destruct i; discriminate|]. cbn [voice_count].
  destruct i as [|i], j as [|j]; cbn [nth_error] in Hd, He.
  - contradiction.
  - injection Hd as ->. assert (X := count_some c t e (nth_error_In _ _ He) Me Oe). rewrite Md, Od, Z.eqb_refl. cbn [andb negb]. lia.
  - injection He as ->. assert (X := count_some c t d (nth_error_In _ _ Hd) Md Od). rewrite Me, Oe, Z.eqb_refl. cbn [andb negb]. lia.
  - assert (X := IH i j d e ltac:(congruence) Hd He Md Me Od Oe). destruct (_ && _); lia.
Qed.
Lemma dev_nth s i d : dev_at s i d -> 0 <= i /\ nth_error (md_dev s) (Z.to_nat i) = Some d.
Proof. unfold dev_at, zget. destruct (Z.ltb_spec i 0); [discriminate|]. auto. Qed.
Lemma serves_key h g s c p i d : chordal h g s -> dev_at s i d -> serves_note c p d = true <-> d_on d = true /\ key_of d = (c, p).
Proof.
  intros J Hd. destruct (cd_dev _ _ _ J i d Hd) as [G _]. unfold serves_note. rewrite playing_note by lia. unfold note_of. rewrite G. change (0 =? 0) with true. cbv iota. unfold key_of.
  destruct (Z.eqb_spec (d_midi d) c) as [->|N]; cbn [andb].
  - destruct (d_on d); cbn [andb]; [|split; [discriminate|intros [X _]; discriminate X]]. destruct (Z.eqb_spec (d_pitch d) p) as [->|N].
    + split; auto.
    + split; [discriminate|]. intros [_ [= X]]. contradiction.
  - split; [discriminate|]. intros [_ [= X _]]. contradiction.
Qed.
Lemma served_alone h g s c p i d m : chordal h g s -> ch_at s c m -> dev_at s i d -> serves_note c p d = true -> falls_back s m c p = false.
Proof.
  intros J Hm Hd Sv. apply (serves_key h g s c p i d J Hd) in Sv as [On Ko]. destruct (falls_back s m c p) eqn:Fb; [exfalso|reflexivity].
  unfold falls_back in Fb. apply andb_prop in Fb as [F1 F2]. apply Z.eqb_eq in F1. unfold off_next in F2.
  destruct (off_stack m p) as [|q t] eqn:Eq; [discriminate|].
  assert (Hq : In q (off_stack m p)) by (rewrite Eq; left; reflexivity). unfold off_stack in Hq. apply filter_In in Hq as [Hq Nq].
  destruct (cd_chan _ _ _ J c m Hm) as (_ & _ & Hk). destruct (cd_held _ _ _ J _ (Hk q Hq)) as (j & e & He & Oe & Ke).
  destruct (dev_nth _ _ _ Hd) as [P1 Q1]. destruct (dev_nth _ _ _ He) as [P2 Q2]. unfold key_of in *. injection Ko as M1 M2. injection Ke as M3 M4.
  assert (N : Z.to_nat i <> Z.to_nat j).
  { intros X. assert (i = j) by lia. subst j. unfold dev_at in Hd, He. rewrite Hd in He. injection He as <-. rewrite M2 in M4. subst q. rewrite Z.eqb_refl in Nq. discriminate. }
  assert (X := count_two c (md_dev s) _ _ d e N Q1 Q2 M1 M3 On Oe). lia.
Qed.
Lemma dropped_in c p h x : In x (filter (fun k => negb ((fst k =? c) && (snd k =? p))) h) <-> In x h /\ x <> (c, p).
Proof.
  rewrite filter_In. destruct x as [a b]. cbn [fst snd]. split; intros [H1 H2]; (split; [exact H1|]).
  - intros [= -> ->]. rewrite !Z.eqb_refl in H2. discriminate.
  - destruct (Z.eqb_spec a c) as [->|]; [|reflexivity]. destruct (Z.eqb_spec b p) as [->|]; [|reflexivity]. contradiction H2. reflexivity.
Qed.
Lemma in_removelast {A} (x : A) l : In x (removelast l) -> In x l.
Proof.
  induction l as [|y t IH]; [intros []|]. cbn [removelast]. destruct t as [|z t]; [intros []|]. intros [<-|H]; [left; reflexivity|right; apply IH, H].
Qed.
Lemma chord_release h g s c p s' cs : midi_ok s -> is_chan c -> chordal h g s -> midi_note_off c p s = WDone s' cs ->
  (chordal (filter (fun k => negb ((fst k =? c) && (snd k =? p))) h) g s' /\ (only_fm s -> only_fm s')) /\
  forall r n, 0 <= n < 6 -> says_on r n s s' cs.
Proof.
  intros Hs Hc J St. destruct (ok_ch_get _ _ Hs Hc) as (m & Hm & _).
  destruct (note_off_effect c p s s' cs m Hs Hc Hm St) as (Ed & Ec & st & So & Ks & Es). set (h' := filter _ h). set (f := note_off_dev s m c p) in *.
  assert (Back := zset_back s s' c m (m_set_np m st) Hm ltac:(rewrite Es; reflexivity)).
  assert (Fd : forall i d, dev_at s i d -> (d_on d = true /\ key_of d = (c, p) /\ f d = off_dev d) \/ (~ (d_on d = true /\ key_of d = (c, p)) /\ f d = d /\ note_off_calls s m c p d = [])).
  { intros i d Hd. assert (K := serves_key h g s c p i d J Hd). unfold f, note_off_dev, note_off_calls, retrig_calls, off_calls. destruct (serves_note c p d) eqn:Sv.
    - left. rewrite (served_alone h g s c p i d m J Hm Hd Sv). destruct (proj1 K eq_refl). auto.
    - right. split; [intros X; apply K in X; discriminate X|]. split; [reflexivity|]. destruct (falls_back _ _ _ _); reflexivity. }
  assert (DA : forall i d', dev_at s' i d' -> exists d, dev_at s i d /\ d' = f d).
  { intros i d' Hd. unfold dev_at in Hd. rewrite Ed in Hd. apply dev_map in Hd. exact Hd. }
  assert (DB : forall i d, dev_at s i d -> dev_at s' i (f d)).
  { intros i d Hd. unfold dev_at in *. rewrite Ed, zget_map, Hd. reflexivity. }
  (* still sounding: untouched *)
  assert (DO : forall i d', dev_at s' i d' -> d_on d' = true -> dev_at s i d' /\ key_of d' <> (c, p) /\ note_off_calls s m c p d' = []).
  { intros i d' Hd On. destruct (DA _ _ Hd) as (d & Hd0 & ->). destruct (Fd i d Hd0) as [(_ & _ & E)|(N & E & Cn)]; [rewrite E in On; discriminate On|]. rewrite E in *. tauto. }
  split; [split|].
  - constructor; try (rewrite Es; cbn [md_dyn md_stick md_nogm md_set_dev md_set_ch]; apply J).
    + intros b x Hx. destruct (Back b x Hx) as [[-> ->]|[N Hb]].
      * destruct (cd_chan _ _ _ J c m Hm) as (Q1 & Q2 & Q3). split; [exact Q1|]. split; [exact Q2|]. intros q Hq. cbn [m_np m_set_np] in Hq. rewrite Ks in Hq.
        assert (In q (off_stack m p)) by (unfold note_off_keys in Hq; destruct (_ && _); [exact Hq|apply in_removelast, Hq]).
        unfold off_stack in H. apply filter_In in H as [H1 H2]. apply dropped_in. split; [apply Q3, H1|]. intros [= ->]. rewrite Z.eqb_refl in H2. discriminate.
      * destruct (cd_chan _ _ _ J b x Hb) as (Q1 & Q2 & Q3). split; [exact Q1|]. split; [exact Q2|]. intros q Hq. apply dropped_in. split; [apply Q3, Hq|congruence].
    + intros i d' Hd'. split.
      * destruct (DA _ _ Hd') as (d & Hd & ->). destruct (cd_dev _ _ _ J i d Hd) as [G _]. destruct (Fd i d Hd) as [(_ & _ & ->)|(_ & -> & _)]; exact G.
      * intros On. destruct (DO _ _ Hd' On) as (Hd & Nk & _). destruct (cd_dev _ _ _ J i d' Hd) as [_ G]. destruct (G On) as (G1 & G2 & G3 & G4 & G5).
        repeat (split; [assumption || (apply dropped_in; auto)|]). intros x Hx. destruct (Back _ _ Hx) as [[Eq ->]|[N Hx']]; [change (d_bend d' = m_bend m); apply G5; rewrite Eq; exact Hm|apply G5, Hx'].
    + intros x Hx. apply dropped_in in Hx as [Hx Nx]. destruct (cd_held _ _ _ J x Hx) as (i & d & Hd & On & K). destruct (Fd i d Hd) as [(_ & K' & _)|(_ & E & _)]; [congruence|].
      exists i, d. split; [rewrite <- E; apply DB, Hd|]. auto.
    + intros i j d e Hd He On Oe K. destruct (DO _ _ Hd On) as [Hd0 _]. destruct (DO _ _ He Oe) as [He0 _]. exact (cd_one _ _ _ J i j d e Hd0 He0 On Oe K).
    + intros i d Hd On. destruct (DO _ _ Hd On) as [Hd0 _]. exact (cd_drum _ _ _ J i d Hd0 On).
  - intros F i d Hd On. destruct (DO _ _ Hd On) as [Hd0 _]. exact (F i d Hd0 On).
  - intros r n Hn vel w H d x Hd On Hx. destruct (DO _ _ Hd On) as (Hd0 & _ & Cn).
    destruct (flat_split s n d (note_off_calls s m c p) r (numbered_ok _ Hs) Hd0) as (a & b & E & A & B).
    { intros e y Hy. unfold note_off_calls, retrig_calls, off_calls in Hy. destruct (falls_back _ _ _ _), (serves_note c p e); try (destruct Hy; fail);
        [destruct (m_porta m); [destruct Hy|]|]; destruct Hy as [<-|[]]; reflexivity. }
    rewrite Ec, E, Cn. assert (X : spares r n (a ++ [] ++ b)) by (apply spares_app; [exact A|exact B]). destruct (X w) as (-> & -> & _ & ->).
    destruct (Back _ _ Hx) as [[Eq ->]|[N Hx']]; [|exact (H d x Hd0 On Hx')]. apply (H d m Hd0 On). rewrite Eq. exact Hm.
Qed.

(** ** Pressing a key *)
Lemma nodup_map {A B} (f : A -> B) l : NoDup l -> (forall x y, In x l -> In y l -> f x = f y -> x = y) -> NoDup (map f l).
Proof.
  induction 1 as [|x t Hx Ht IH]; intros I; cbn [map]; constructor.
  - intros Hin. apply in_map_iff in Hin as (y & E & Hy). apply Hx. rewrite (I x y); auto; [left; reflexivity|right; exact Hy].
  - apply IH. intros a b Ha Hb. apply I; right; assumption.
Qed.
Lemma nodup_zseq n : forall a, NoDup (zseq a n).
Proof. induction n as [|n IH]; intros a; cbn [zseq]; constructor; [|apply IH]. intros H. apply in_zseq in H. lia. Qed.
(** The device channels a MIDI channel may use. *)
Definition last_voice (c hi : Z) : Z := if c =? 9 then Z.min hi 5 else hi.
Lemma voice_left h g s c m : midi_ok s -> chordal h g s -> ch_at s c m -> (length h < voices c (g c))%nat -> exists i d, candidate s m c i d.
Proof.
  intros Hs J Hm L. destruct (cd_chan _ _ _ J c m Hm) as (_ & Sel & _).
  destruct (group_of (m_sel m)) as [lo hi0] eqn:Eg. set (hi := last_voice c hi0).
  assert (R : 0 <= lo /\ hi < 13 /\ hi <= hi0 /\ (c = 9 -> hi < 6) /\ voices c (g c) = length (upto lo hi)).
  { rewrite <- Sel. unfold hi, last_voice. clear hi. revert Eg. unfold group_of, voices. destruct (Z.eqb_spec c 9);
      (destruct (m_sel m =? 0); [|destruct (m_sel m =? 1); [|destruct (m_sel m =? 2)]]);
      intros [= <- <-]; (split; [lia|]); (split; [lia|]); (split; [lia|]); (split; [lia|]); reflexivity. }
  destruct R as (R1 & R2 & R2a & R2b & R3).
  destruct (first_dev (md_dev s) (fun d => negb (d_on d)) (upto lo hi)) as [i|] eqn:Ef.
  - apply first_dev_some in Ef as (Hi & d & Hd & Ho). exists i, d. unfold candidate. rewrite Eg. cbn [fst snd]. split; [lia|]. split; [exact Hd|].
    split; [destruct (d_on d); [discriminate|reflexivity]|]. intros [-> Ps]. specialize (R2b eq_refl).
    destruct (ok_dev _ _ _ Hs Hd) as [[(S1 & _) _] Hj]. destruct (S1 ltac:(lia)) as [_ [S3|[_ S3]]]; congruence.
  - exfalso. set (k := fun i => match zget (md_dev s) i with Some d => key_of d | None => (0, 0) end).
    assert (On : forall i, In i (upto lo hi) -> exists d, dev_at s i d /\ d_on d = true /\ k i = key_of d).
    { intros i Hi. apply in_upto in Hi. destruct (zget_in_range (md_dev s) i) as [d Hd]; [destruct Hs as [-> _]; lia|]. exists d. split; [exact Hd|].
      assert (X := first_dev_none _ _ _ _ i d Ef Hi Hd). cbv beta in X. split; [destruct (d_on d); [reflexivity|discriminate]|]. unfold k. rewrite Hd. reflexivity. }
    assert (ND : NoDup (map k (upto lo hi))).
    { apply nodup_map.
      - apply nodup_zseq.
      - intros x y Hx Hy E. destruct (On x Hx) as (d & Hd & Od & Kd). destruct (On y Hy) as (e & He & Oe & Ke). apply (cd_one _ _ _ J x y d e); congruence || assumption. }
    assert (Inc : incl (map k (upto lo hi)) h).
    { intros x Hx. apply in_map_iff in Hx as (i & <- & Hi). destruct (On i Hi) as (d & Hd & Od & ->). destruct (cd_dev _ _ _ J i d Hd) as [_ X]. apply X, Od. }
    assert (X := NoDup_incl_length ND Inc). rewrite map_length in X. lia.
Qed.

Lemma nodup_filter {A B} (f : A -> B) (P : A -> bool) l :
  (forall i j d e, nth_error l i = Some d -> nth_error l j = Some e -> P d = true -> P e = true -> f d = f e -> i = j) -> NoDup (map f (filter P l)).
Proof.
  induction l as [|x t IH]; intros U; cbn [filter]; [constructor|].
  assert (T : NoDup (map f (filter P t))) by (apply IH; intros i j d e Hd He Pd Pe E; assert (X := U (S i) (S j) d e Hd He Pd Pe E); congruence).
  destruct (P x) eqn:Px; [|exact T]. cbn [map]. constructor; [|exact T].
  intros Hin. apply in_map_iff in Hin as (y & E & Hy). apply filter_In in Hy as [Hy Py]. apply In_nth_error in Hy as [k Hk].
  assert (X := U 0%nat (S k) x y eq_refl Hk Px Py (eq_sym E)). discriminate.
Qed.
Lemma few_drums h g s c : chordal h g s -> (c = 9 -> (length (filter (fun x => (fst x =? 9)%Z) h) < 2)%nat) -> tooManyPercussiveNotes s c = false.
Proof.
  intros J L. destruct (Z.eq_dec c 9) as [->|N].
  - specialize (L eq_refl). rewrite MidiMapProofs.too_many_count. apply Nat.leb_gt. unfold percussion_notes.
    set (P := fun d => (d_midi d =? 9) && d_on d).
    assert (At : forall i d, nth_error (md_dev s) i = Some d -> dev_at s (Z.of_nat i) d).
    { intros i d Hd. unfold dev_at, zget. destruct (Z.ltb_spec (Z.of_nat i) 0); [lia|]. rewrite Nat2Z.id. exact Hd. }
    assert (ND : NoDup (map key_of (filter P (md_dev s)))).
    { apply nodup_filter. intros i j d e Hd He Pd Pe E. apply andb_prop in Pd as [_ Pd]. apply andb_prop in Pe as [_ Pe].
      assert (X := cd_one _ _ _ J _ _ d e (At _ _ Hd) (At _ _ He) Pd Pe E). lia. }
    assert (Inc : incl (map key_of (filter P (md_dev s))) (filter (fun x => (fst x =? 9)%Z) h)).
    { intros x Hx. apply in_map_iff in Hx as (d & <- & Hd). apply filter_In in Hd as [Hd Pd]. apply andb_prop in Pd as [P1 P2].
      apply In_nth_error in Hd as [i Hd]. destruct (cd_dev _ _ _ J _ d (At _ _ Hd)) as [_ X]. apply filter_In. split; [apply X, P2|exact P1]. }
    assert (X := NoDup_incl_length ND Inc). rewrite map_length in X. lia.
  - unfold tooManyPercussiveNotes, PERCUSSION. destruct (Z.eqb_spec c 9); [contradiction|]. reflexivity.
Qed.

Lemma chosen_where s m c i : md_dyn s = true -> md_stick s = false -> MidiEqProofs.chosen s m c = Some i ->
  fst (group_of (m_sel m)) <= i <= snd (group_of (m_sel m)) \/ In (m_prog m) [80; 89; 99] /\ 6 <= i <= 7.
Proof.
  intros D S. unfold MidiEqProofs.chosen. change (device_min_max (m_sel m)) with (group_of (m_sel m)). destruct (group_of (m_sel m)) as [lo hi]. cbn [fst snd]. rewrite D.
  assert (O : forall a b : option Z, orelse a b = Some i -> a = Some i \/ b = Some i) by (intros [x|] b; cbn; auto).
  intros H. apply O in H as [H|H]; [left; apply first_dev_some in H; lia|]. apply O in H as [H|H].
  { right. unfold square_dev in H. destruct (_ || _) eqn:E; [|discriminate]. apply first_dev_some in H. split; [|lia].
    apply orb_prop in E as [E|E]; [apply orb_prop in E as [E|E]|]; apply Z.eqb_eq in E; cbn; lia. }
  left. apply O in H as [H|H]; [|apply first_dev_some in H; lia]. unfold specific_dev in H. rewrite S in H. unfold search_dev in H. apply O in H as [H|H]; apply first_dev_some in H; lia.
Qed.
Lemma group_below x : snd (group_of x) < 10.
Proof. unfold group_of. destruct (x =? 0); [cbn; lia|]. destruct (x =? 1); [cbn; lia|]. destruct (x =? 2); cbn; lia. Qed.

(** What a press does: a free voice of the group is taken. *)
Lemma press_effect h g s c p v s' cs : midi_ok s -> is_chan c -> MidiSpec.seven p -> v <> 0 -> chordal h g s -> (c = 9 -> (length (filter (fun x => (fst x =? 9)%Z) h) < 2)%nat) ->
  (forall m, ch_at s c m -> (length (keys (m_np m)) < 10)%nat) -> (length h < voices c (g c))%nat -> steps s (MNoteOn c p v) s' cs ->
  exists m0 i d, ch_at s c m0 /\ MidiEqProofs.chosen s m0 c = Some i /\ dev_at s i d /\ d_on d = false /\
   exists m d1, ch_at s' c m /\ (forall b x, ch_at s' b x -> b = c /\ x = m \/ b <> c /\ ch_at s b x) /\
     md_dev s' = zset (md_dev s) i (started m c p d1) /\ cs = start_calls m c p v d1 /\
     d_glide d1 = 0 /\ d_ops d1 = d_ops d /\ d_num d1 = d_num d /\ m_porta m = false /\ m_sel m = g c /\ (forall q, In q (keys (m_np m)) -> In (c, q) ((c, p) :: h)) /\
     m_bend m = m_bend m0 /\ (m_range m = m_range m0 /\ m_fine m = m_fine m0) /\ md_dyn s' = md_dyn s /\ md_stick s' = md_stick s /\ md_nogm s' = md_nogm s.
Proof.
  intros Hs Hc Hp Hv J N9 Lk L St. destruct (ok_ch_get _ _ Hs Hc) as (m0 & Hm0 & _).
  destruct (cd_chan _ _ _ J c m0 Hm0) as (Po & Sel & Hk).
  destruct (voice_left h g s c m0 Hs J Hm0 L) as (i0 & d0 & Ca). destruct (chosen_free s m0 c i0 d0 (cd_dyn _ _ _ J) (cd_stick _ _ _ J) Ca) as (i & d & Ci & Hd & Off).
  exists m0, i, d. repeat (split; [assumption|]).
assert (St' := St). unfold steps in St'; cbn [midi_step] in St'.
    destruct (midi_note_on_eq c p v s m0 Hs Hc Hp Hv Hm0) as (s2 & o2 & E2 & R). rewrite St' in E2. injection E2 as E2 E3.
    rewrite E2, E3. clear E2 E3 St' St.
    destruct R as [[Ht|[Ht|[_ Ht]]]|j e st Ht Cj He _ _ Ek Pp _|j e st Ht Cj He _ _ Ek _|j e Ht Cj He Hvc].
    - exfalso. rewrite (few_drums h g s c J N9) in Ht. discriminate.
    - congruence.
    - exfalso. specialize (Lk m0 Hm0). lia.
    - congruence.
    - rewrite Ci in Cj. injection Cj as <-. unfold dev_at in Hd. rewrite Hd in He. injection He as <-.
      exists (m_set_vel (m_set_np m0 st) v), (d_set_glide d 0).
      split; [unfold ch_at; cbn [md_ch md_set_dev md_set_ch]; apply zget_zset_same; eapply zget_Some; exact Hm0|].
      split; [apply (zset_back s _ c m0 _ Hm0); reflexivity|]. repeat (split; [reflexivity || assumption|]). split.
      { intros q Hq. cbn [m_np m_set_np m_set_vel] in Hq. rewrite Ek in Hq. apply in_app_or in Hq as [Hq|[<-|[]]]; [right; apply Hk, Hq|left; reflexivity]. }
      repeat split; reflexivity.
    - rewrite Ci in Cj. injection Cj as <-. unfold dev_at in Hd. rewrite Hd in He. injection He as <-.
      exists m0, d. split; [exact Hm0|]. split.
      { intros b x Hx. destruct (Z.eq_dec b c) as [->|N]; [left|right; auto]. split; [reflexivity|]. unfold ch_at in *. cbn [md_ch md_set_dev] in Hx. congruence. }
      split; [reflexivity|]. split; [reflexivity|]. split; [apply (cd_dev _ _ _ J i d Hd)|]. repeat (split; [reflexivity || assumption|]). split; [|repeat split; reflexivity].
      intros q Hq. right. apply Hk, Hq.
Qed.
Lemma chord_press h g s c p v s' cs : midi_ok s -> is_chan c -> MidiSpec.seven p -> v <> 0 -> chordal h g s -> (c = 9 -> (length (filter (fun x => (fst x =? 9)%Z) h) < 2)%nat) -> ~ In (c, p) h ->
  (forall m, ch_at s c m -> (length (keys (m_np m)) < 10)%nat) -> (length h < voices c (g c))%nat ->
  (forall m d, ch_at s' c m -> DevSpec.playable (pc_pitch (eff m (started m c p d))) = true) -> steps s (MNoteOn c p v) s' cs ->
  chordal ((c, p) :: h) g s' /\ ((forall m, ch_at s c m -> ~ In (m_prog m) [80; 89; 99]) -> g c = 1 -> only_fm s -> only_fm s') /\
  forall r n, 0 <= n < 6 -> (forall d, dev_at s n d -> d_ops d = VFm) ->
    forall vel vel' w, vel' (c, p) = v -> (forall x, x <> (c, p) -> vel' x = vel x) -> says r n vel s w -> says r n vel' s' (fold_left (cv_step r n) cs w).
Proof.
  intros Hs Hc Hp Hv J N9 Nh Lk L Pl St.
  destruct (press_effect h g s c p v s' cs Hs Hc Hp Hv J N9 Lk L St) as (m0 & i & d & Hm0 & Ci & Hd & Off & R).
  destruct (cd_chan _ _ _ J c m0 Hm0) as (_ & Sel & _).
  assert (W := chosen_where s m0 c i (cd_dyn _ _ _ J) (cd_stick _ _ _ J) Ci). assert (Gb := group_below (m_sel m0)).
  destruct R as (m & d1 & Hm & Back & Ed & Ec & Gl & Op & Nu & Pm & Sm & Km & Bm & (Rm & Fm) & D1 & D2 & D3). set (dn := started m c p d1) in *.
  assert (Hi : 0 <= i < Z.of_nat (length (md_dev s))) by (eapply zget_Some; exact Hd).
  assert (DA : forall j e, dev_at s' j e -> j = i /\ e = dn \/ j <> i /\ dev_at s j e).
  { intros j e He. unfold dev_at in *. rewrite Ed in He. destruct (Z.eq_dec j i) as [->|N].
    - rewrite zget_zset_same in He by exact Hi. injection He as <-. auto.
    - rewrite zget_zset_other in He by congruence. auto. }
  assert (Dn : dev_at s' i dn) by (unfold dev_at; rewrite Ed; apply zget_zset_same, Hi).
  assert (DB : forall j e, dev_at s j e -> j <> i -> dev_at s' j e) by (intros j e He N; unfold dev_at; rewrite Ed, zget_zset_other by congruence; exact He).
  assert (I10 : i < 10) by lia.
  split; [|split].
  - constructor; try (rewrite ?D1, ?D2, ?D3; apply J).
    + intros b x Hx. destruct (Back b x Hx) as [[-> ->]|[N Hb]]; [auto|]. destruct (cd_chan _ _ _ J b x Hb) as (Q1 & Q2 & Q3). split; [exact Q1|]. split; [exact Q2|]. intros q Hq. right. apply Q3, Hq.
    + intros j e He. destruct (DA j e He) as [[-> ->]|[N He0]].
      * split; [exact Gl|]. intros _. split; [exact I10|]. split; [reflexivity|]. split; [left; reflexivity|]. split; [exact Hc|].
        intros x Hx. destruct (Back _ _ Hx) as [[_ ->]|[X _]]; [reflexivity|]. contradiction X. reflexivity.
      * destruct (cd_dev _ _ _ J j e He0) as [G O]. split; [exact G|]. intros On. destruct (O On) as (O1 & O2 & O3 & O4 & O5).
        split; [exact O1|]. split; [exact O2|]. split; [right; exact O3|]. split; [exact O4|]. intros x Hx.
        destruct (Back _ _ Hx) as [[Eq ->]|[_ Hx']]; [rewrite Bm; apply O5; rewrite Eq; exact Hm0|apply O5, Hx'].
    + intros x [<-|Hx]; [exists i, dn; repeat split; exact Dn|]. destruct (cd_held _ _ _ J x Hx) as (j & e & He & On & K).
      exists j, e. split; [apply DB; [exact He|]|auto]. intros ->. unfold dev_at in He, Hd. congruence.
    + intros j k a b Ha Hb Oa Ob K. destruct (DA j a Ha) as [[-> ->]|[Nj Ha0]], (DA k b Hb) as [[-> ->]|[Nk Hb0]].
      * reflexivity.
      * exfalso. apply Nh. destruct (cd_dev _ _ _ J k b Hb0) as [_ X]. destruct (X Ob) as (_ & _ & X1 & _). rewrite <- K in X1. exact X1.
      * exfalso. apply Nh. destruct (cd_dev _ _ _ J j a Ha0) as [_ X]. destruct (X Oa) as (_ & _ & X1 & _). rewrite K in X1. exact X1.
      * exact (cd_one _ _ _ J j k a b Ha0 Hb0 Oa Ob K).
    + intros j e He On M. destruct (DA j e He) as [[-> ->]|[_ He0]]; [|exact (cd_drum _ _ _ J j e He0 On M)]. change (d_midi dn) with c in M.
      destruct (chosen_cases s m0 c i d Ci Hd) as (_ & _ & P). specialize (P (cd_dyn _ _ _ J)). unfold isPsgAndIncomingChanIsPercussive, PERCUSSION in P. rewrite M in P.
      destruct (Z_lt_le_dec i 6) as [|G6]; [assumption|]. exfalso. destruct (ok_dev _ _ _ Hs Hd) as [[(_ & S2 & _) _] _]. destruct (S2 ltac:(lia)) as [_ S3]. rewrite S3 in P. discriminate.
  - intros Np G1 F j e He On. destruct (DA j e He) as [[-> ->]|[N He0]]; [|exact (F j e He0 On)].
    destruct W as [W|[W _]]; [|contradiction (Np m0 Hm0 W)]. rewrite Sel, G1 in W. change (fst (group_of 1)) with 0 in W. change (snd (group_of 1)) with 5 in W. lia.
  - intros r n Hn Ov vel vel' w Ev Eo H e x He On Hx. rewrite Ec. destruct (DA n e He) as [[-> ->]|[N He0]].
    + destruct (Back _ _ Hx) as [[_ ->]|[X _]]; [|contradiction X; reflexivity].
      assert (No := numbered_ok _ Hs i d Hd (Ov d Hd)). rewrite start_calls_split, fold_left_app. cbn [fold_left].
      rewrite Op, (Ov d Hd), Nu, No. destruct (tuneup_view r i m c p d1 w) as (_ & _ & T3). specialize (T3 ltac:(congruence)).
      set (w1 := fold_left (cv_step r i) (tuneup m c p d1) w) in *.
      fold (noted r i w1 (pc_pitch (eff m (started m c p d1))) (pc_cents (eff m (started m c p d1))) v).
      rewrite noted_eq by (apply Pl, Hm). cbv zeta. rewrite T3. cbn [cv_sv v_key v_frq cv_vel]. split; [reflexivity|]. split; [|symmetry; exact Ev].
      intros M9. change (d_midi dn) with c in M9. destruct (Z.eqb_spec c 9); [contradiction|]. reflexivity.
    + assert (X : spares r n (start_calls m c p v d1)).
      { apply spares_all. intros y Hy. apply spares_voice.
        - intros k Hk'. assert (Y : call_voice y = Some (d_ops d, d_num d) \/ call_voice y = None).
          { unfold start_calls, sync_calls in Hy. cbn [prepared d_ops d_num d_set_pitch d_set_cents d_set_on d_set_midi] in Hy. rewrite Op, Nu in Hy.
            repeat (apply in_app_or in Hy as [Hy|Hy]); repeat match type of Hy with In _ (if ?b then _ else _) => destruct b end;
              try (destruct Hy; fail); destruct Hy as [<-|[]]; cbn [call_voice]; auto. }
          destruct Y as [Y|Y]; rewrite Y in Hk'; [|discriminate]. injection Hk' as K1 K2. rewrite (numbered_ok _ Hs i d Hd K1) in K2. congruence.
        - intros Y. unfold start_calls, sync_calls in Hy. left.
          repeat (apply in_app_or in Hy as [Hy|Hy]); repeat match type of Hy with In _ (if ?b then _ else _) => destruct b end;
            try (destruct Hy; fail); destruct Hy as [<-|[]]; try discriminate Y; eauto. }
      destruct (X w) as (-> & -> & _ & ->).
      rewrite Eo by (intros Y; apply Nh; rewrite <- Y; apply (cd_dev _ _ _ J n e He0), On).
      destruct (Back _ _ Hx) as [[Eq ->]|[_ Hx']]; [|exact (H e x He0 On Hx')].
      destruct (H e m0 He0 On ltac:(rewrite Eq; exact Hm0)) as (K1 & K2 & K3). split; [exact K1|]. split; [|exact K3]. intros M9. rewrite K2 by exact M9. unfold tune, eff. rewrite Rm, Fm. reflexivity.
Qed.
