(** Drums held beside the chords of dynamic mode. *)
From Verif Require Import Base BaseLemmas PitchModel PitchSpec PitchProofs NotePriorityModel SynthModel SynthSpec SynthProofs SynthMirrorProofs SynthClaimsProofs SynthViewProofs.
From Verif Require Import MidiModel MidiSpec MidiProofs MidiOkProofs MidiEqProofs MidiEffectProofs MidiCallProofs MidiNoteProofs MidiChanProofs MidiTuneProofs MidiDevProofs MidiInvProofs MidiPlaceProofs MidiClaimsProofs MidiHistProofs.
From Verif Require Import PsgModel DevModel DevSpec DevProofs AppModel AppSpec AppProofs AppTraceProofs AppClaimsProofs AppViewProofs AppKeyProofs SoundSpec AppSoundProofs AppToneProofs AppNoteProofs GlideProofs ChordSpec ChordProofs ChordRunProofs.

(** What the chip is told about a sounding drum. *)
Definition drum_tune (r : rom) (m : mchan) (d : dev) : option (Z * Z) :=
  let key := snd (drum r (pc_pitch (eff m d))) in Some (pitch_to_octave key mod 8, freq_of r key (pc_cents (eff m d)) mod 2048).
Definition drumming (r : rom) (n : Z) (s : midi) (w : cview) : Prop := forall d m, dev_at s n d -> d_on d = true -> d_midi d = 9 -> ch_at s 9 m ->
  v_pre (cv_sv w) = fst (drum r (pc_pitch (eff m d))) /\ v_frq (cv_sv w) = drum_tune r m d.

(** Calls that leave pitch and instrument of FM channel [n] alone. *)
Definition mild (n : Z) (x : dcall) : Prop :=
  match x with
  | DVolume _ _ _ | DPan _ _ _ | DPerc _ _ | DChange _ _ _ _ => True
  | DNoteOn VFm k _ _ _ | DNoteOff VFm k _ | DProgram VFm k _ | DPitch VFm k _ _ => k <> n
  | DNoteOn _ _ _ _ _ | DNoteOff _ _ _ | DProgram _ _ _ | DPitch _ _ _ _ => True
  | _ => False
  end.
Lemma mild_one r n x w : mild n x -> v_pre (cv_sv (cv_step r n w x)) = v_pre (cv_sv w) /\ v_frq (cv_sv (cv_step r n w x)) = v_frq (cv_sv w).
Proof.
  assert (S0 : forall m, m <> n -> (m =? n) = false) by (intros m X; destruct (Z.eqb_spec m n); [contradiction|reflexivity]).
  destruct x as [v m ? ? ?|v m ?|v m ?|v m ?|v m|v m ?|v m ? ?|m b|?|?|? ?|?|? ?|?|? ?|?| | | | | |? ? ? ?|? ?]; cbn [mild]; try contradiction; intros Q;
    try destruct v; try (cbn [cv_step cv_sops fold_left cv_sv]; split; reflexivity);
    try (assert (X := S0 m Q); cbn [cv_step cv_sops]; rewrite ?X, ?andb_false_r; cbn [andb fold_left sv_step cv_sv]; rewrite ?X; split; reflexivity);
    cbn [cv_step cv_sops]; destruct (m =? n) eqn:E; cbn [andb fold_left sv_step cv_sv]; rewrite ?E; split; reflexivity.
Qed.
Lemma mild_all r n cs : forall w, (forall x, In x cs -> mild n x) ->
  v_pre (cv_sv (fold_left (cv_step r n) cs w)) = v_pre (cv_sv w) /\ v_frq (cv_sv (fold_left (cv_step r n) cs w)) = v_frq (cv_sv w).
Proof.
  induction cs as [|c t IH]; intros w H; [split; reflexivity|]. cbn [fold_left]. destruct (IH (cv_step r n w c)) as [-> ->]; [intros x Hx; apply H; right; exact Hx|].
  apply mild_one, H. left. reflexivity.
Qed.
(** The drum and its channel are as before, and the calls mild. *)
Lemma drum_kept r n s s' cs w : drumming r n s w ->
  (forall d' m', dev_at s' n d' -> d_on d' = true -> d_midi d' = 9 -> ch_at s' 9 m' -> exists d m, dev_at s n d /\ d_on d = true /\ d_midi d = 9 /\ ch_at s 9 m /\ eff m' d' = eff m d /\ forall x, In x cs -> mild n x) ->
  drumming r n s' (fold_left (cv_step r n) cs w).
Proof.
  intros H K d' m' Hd On M Hm. destruct (K d' m' Hd On M Hm) as (d & m & Hd0 & On0 & M0 & Hm0 & E & Q). destruct (H d m Hd0 On0 M0 Hm0) as [H1 H2].
  destruct (mild_all r n cs w Q) as [-> ->]. unfold drum_tune in *. rewrite E. auto.
Qed.

Definition no_drum (s : midi) : Prop := forall i d, dev_at s i d -> d_on d = true -> d_midi d <> 9.
Lemma eff_same m m' d d' : m_range m' = m_range m -> m_fine m' = m_fine m -> d_pitch d' = d_pitch d -> d_cents d' = d_cents d -> d_bend d' = d_bend d -> eff m' d' = eff m d.
Proof. intros E1 E2 E3 E4 E5. unfold eff. rewrite E1, E2, E3, E4, E5. reflexivity. Qed.

Lemma drum_cc r n h g s c k v s' cs w : midi_ok s -> is_chan c -> MidiSpec.seven v -> chordal h g s -> k = 7 \/ k = 10 \/ k = 86 ->
  steps s (MCc c k v) s' cs -> drumming r n s w -> drumming r n s' (fold_left (cv_step r n) cs w).
Proof.
  intros Hs Hc Hv J Hk St H. destruct (ok_ch_get _ _ Hs Hc) as (m & Hm & _). unfold steps in St; cbn [midi_step] in St.
  destruct (midi_cc_result _ _ _ _ m _ _ Hs Hc Hv Hm St) as (o' & R & ->). clear St.
  assert (K : forall f m1 o, s' = md_set_dev (md_set_ch s (zset (md_ch s) c m1)) (map f (md_dev s)) -> m_range m1 = m_range m -> m_fine m1 = m_fine m ->
    (forall d, same_note d (f d) /\ d_bend (f d) = d_bend d) -> (forall x, In x o -> mild n x) ->
    drumming r n s' (fold_left (cv_step r n) (o ++ (if md_cb s' then [DChange 2 c k v] else [])) w)).
  { intros f m1 o Es E1 E2 S Q. apply (drum_kept r n s); [exact H|]. intros d' m' Hd On M Hm'.
    unfold dev_at in Hd. rewrite Es in Hd. cbn [md_dev md_set_dev] in Hd. apply dev_map in Hd as (d & Hd & ->). destruct (S d) as ((S1 & S2 & S3 & S4 & _) & S5).
    assert (X : exists m2, ch_at s 9 m2 /\ m_range m' = m_range m2 /\ m_fine m' = m_fine m2).
    { destruct (zset_back s s' c m m1 Hm ltac:(rewrite Es; reflexivity) 9 m' Hm') as [[<- ->]|[_ X]]; [exists m|exists m']; auto. }
    destruct X as (m2 & X1 & X2 & X3). exists d, m2. rewrite S1 in On. rewrite S2 in M. repeat (split; [assumption|]). split; [apply eff_same; assumption|].
    intros x Hx. apply in_app_or in Hx as [Hx|Hx]; [apply Q, Hx|]. destruct (md_cb s'); [|destruct Hx]. destruct Hx as [<-|[]]. exact Logic.I. }
  destruct R as [m' Hf|Hk'|Hk'|Hk'|s1 Hk' E|Hk'|s1 o1 Hk' E|Hk' _|Hk' Hr|Hk'|o1 Hk' _|Hk'|devs o1 Hk' HH]; try (exfalso; clear -Hk Hk'; lia).
  - assert (E : k = 86 /\ m' = m_set_sel m (RANGE v 4)).
    { unfold cc_field in Hf. rewrite (cd_nogm _ _ _ J) in Hf. destruct Hk as [->|[->| ->]]; cbn in Hf; try discriminate. injection Hf as <-. auto. }
    destruct E as [-> ->]. apply (K (fun d => d) (m_set_sel m (RANGE v 4))); try reflexivity; [rewrite map_id; destruct s; reflexivity|intros d; repeat split; reflexivity|intros x []].
  - subst k. apply (K (at_chan c (fun d => d_set_vol d v)) (m_set_vol m v)); try reflexivity.
    + intros d. split; [apply at_same; intros; repeat split; reflexivity|apply at_bend; reflexivity].
    + intros x Hx. apply in_flat_map in Hx as (e & _ & Hx). unfold calls_at in Hx. destruct (_ =? c); [|destruct Hx]. destruct (_ =? _); [destruct Hx|]. destruct Hx as [<-|[]]. exact Logic.I.
  - subst k. apply (K (at_chan c (fun d => d_set_pan d v)) (m_set_pan m v)); try reflexivity.
    + intros d. split; [apply at_same; intros; repeat split; reflexivity|apply at_bend; reflexivity].
    + intros x Hx. apply in_flat_map in Hx as (e & _ & Hx). unfold calls_at in Hx. destruct (_ =? c); [|destruct Hx]. destruct (_ =? _); [destruct Hx|]. destruct Hx as [<-|[]]. exact Logic.I.
  - exfalso. destruct Hk' as [Hk'|[Hk'|[_ Hk']]]; [clear -Hk Hk'; lia|clear -Hk Hk'; lia|]. rewrite (cd_nogm _ _ _ J) in Hk'. discriminate.
  - exfalso. apply Hk'. cbn. clear -Hk. lia.
Qed.

(** Calls for the voices of another channel are mild. *)
Lemma others_mild s n d c (hh : dev -> list dcall) x : midi_ok s -> dev_at s n d -> d_midi d <> c ->
  (forall e y, In y (hh e) -> exists v k, call_voice y = Some (v, k) /\ v = d_ops e /\ k = d_num e /\ (v = VFm -> k <> n -> mild n y) /\ (v <> VFm -> mild n y)) ->
  In x (flat_map (calls_at c hh) (md_dev s)) -> mild n x.
Proof.
  intros Hs Hd N Q Hx. apply in_flat_map in Hx as (e & He & Hx). unfold calls_at in Hx. destruct (Z.eqb_spec (d_midi e) c) as [Ec|]; [|destruct Hx].
  destruct (Q e x Hx) as (v & k & _ & -> & -> & Q1 & Q2). destruct (d_ops e) eqn:Eo; try (apply Q2; discriminate).
  apply Q1; [reflexivity|]. apply In_nth_error in He as [j Hj].
  assert (A : dev_at s (Z.of_nat j) e) by (unfold dev_at, zget; destruct (Z.ltb_spec (Z.of_nat j) 0); [lia|]; rewrite Nat2Z.id; exact Hj).
  rewrite (numbered_ok _ Hs _ e A Eo). intros E. rewrite E in A. unfold dev_at in A, Hd. congruence.
Qed.
Lemma drum_program r n h g s c p s' cs w : midi_ok s -> is_chan c -> chordal h g s -> (c = 9 -> no_drum s) ->
  steps s (MProgram c p) s' cs -> drumming r n s w -> drumming r n s' (fold_left (cv_step r n) cs w).
Proof.
  intros Hs Hc J Nd St H. destruct (ok_ch_get _ _ Hs Hc) as (m & Hm & _). unfold steps in St; cbn [midi_step] in St.
  rewrite (midi_program_eq _ _ _ m Hm) in St. injection St as <- <-. set (s' := md_set_dev _ _). assert (Back := zset_back s s' c m (m_set_prog m p) Hm eq_refl).
  apply (drum_kept r n s); [exact H|]. intros d' m' Hd On M Hm'. unfold dev_at in Hd. cbn [s' md_dev md_set_dev] in Hd. apply dev_map in Hd as (d & Hd & ->).
  assert (E : at_chan c (fun d0 => d_set_prog d0 p) d = d).
  { unfold at_chan in *. destruct (Z.eqb_spec (d_midi d) c) as [Ec|]; [|reflexivity]. exfalso. cbn [d_on d_midi d_set_prog] in On, M. rewrite M in Ec. exact (Nd (eq_sym Ec) n d Hd On M). }
  rewrite E in *. assert (N : d_midi d <> c) by (intros Ec; rewrite M in Ec; exact (Nd (eq_sym Ec) n d Hd On M)).
  destruct (Back 9 m' Hm') as [[X _]|[_ X]]; [congruence|]. exists d, m'. repeat (split; [assumption || reflexivity|]).
  intros x Hx. apply in_app_or in Hx as [Hx|Hx]; [|destruct (md_cb s); [|destruct Hx]; destruct Hx as [<-|[]]; exact Logic.I].
  eapply (others_mild s n d c); [exact Hs|exact Hd|exact N| |exact Hx].
  intros e y Hy. cbv beta in Hy. destruct (_ =? _); [destruct Hy|]. destruct Hy as [<-|[]]. exists (d_ops e), (d_num e). repeat (split; [reflexivity|]). cbn [mild]. split; [intros ->; auto|]. destruct (d_ops e); intros; exact Logic.I || congruence.
Qed.
Lemma drum_bend r n h g s c b s' cs w : midi_ok s -> is_chan c -> chordal h g s -> (c = 9 -> no_drum s) ->
  steps s (MBend c b) s' cs -> drumming r n s w -> drumming r n s' (fold_left (cv_step r n) cs w).
Proof.
  intros Hs Hc J Nd St H. destruct (ok_ch_get _ _ Hs Hc) as (m & Hm & _). unfold steps in St; cbn [midi_step] in St.
  rewrite (midi_pitch_bend_eq _ _ _ m Hm) in St. injection St as <- <-. set (s' := md_set_dev _ _). assert (Back := zset_back s s' c m (m_set_bend m b) Hm eq_refl).
  apply (drum_kept r n s); [exact H|]. intros d' m' Hd On M Hm'. unfold dev_at in Hd. cbn [s' md_dev md_set_dev] in Hd. apply dev_map in Hd as (d & Hd & ->).
  assert (E : at_chan c (fun d0 => if d_on d0 then d_set_bend d0 b else d0) d = d).
  { unfold at_chan in *. destruct (Z.eqb_spec (d_midi d) c) as [Ec|]; [|reflexivity]. destruct (d_on d) eqn:O; [|reflexivity]. exfalso. cbn [d_on d_midi d_set_bend] in On, M. rewrite M in Ec. exact (Nd (eq_sym Ec) n d Hd O M). }
  rewrite E in *. assert (N : d_midi d <> c) by (intros Ec; rewrite M in Ec; exact (Nd (eq_sym Ec) n d Hd On M)).
  destruct (Back 9 m' Hm') as [[X _]|[_ X]]; [congruence|]. exists d, m'. repeat (split; [assumption || reflexivity|]).
  intros x Hx. eapply (others_mild s n d c); [exact Hs|exact Hd|exact N| |exact Hx].
  intros e y Hy. cbv beta in Hy. destruct (d_on e); [|destruct Hy]. destruct (_ =? b); [destruct Hy|]. destruct Hy as [<-|[]]. exists (d_ops e), (d_num e). repeat (split; [reflexivity|]). cbn [mild]. split; [intros ->; auto|]. destruct (d_ops e); intros; exact Logic.I || congruence.
Qed.
Lemma drum_frame r n h g s s' cs w : midi_ok s -> chordal h g s -> steps s MTick s' cs -> drumming r n s w -> drumming r n s' (fold_left (cv_step r n) cs w).
Proof.
  intros Hs J St H. unfold steps in St; cbn [midi_step] in St. rewrite (midi_tick_eq _ Hs) in St. injection St as <- <-.
  assert (T1 : map (tick_dev (md_ch s)) (md_dev s) = md_dev s).
  { rewrite <- map_id. apply map_ext. intros d. unfold tick_dev. destruct (zget (md_ch s) (d_midi d)) as [m|] eqn:E; [|reflexivity].
    destruct (cd_chan _ _ _ J _ m E) as [-> _]. rewrite andb_false_r. reflexivity. }
  assert (T2 : flat_map (tick_calls (md_ch s)) (md_dev s) = []).
  { assert (Z : forall d, tick_calls (md_ch s) d = []).
    { intros d. unfold tick_calls. destruct (zget (md_ch s) (d_midi d)) as [m|] eqn:E; [|reflexivity].
      destruct (cd_chan _ _ _ J _ m E) as [-> _]. rewrite andb_false_r. reflexivity. }
    clear T1. induction (md_dev s) as [|d t IH]; [reflexivity|]. cbn [flat_map]. rewrite Z. exact IH. }
  rewrite T1, T2. apply (drum_kept r n s); [exact H|]. intros d m Hd On M Hm. exists d, m. repeat (split; [assumption || reflexivity|]). intros x [].
Qed.
Lemma drum_release r n h g s c p s' cs w : midi_ok s -> is_chan c -> chordal h g s -> midi_note_off c p s = WDone s' cs ->
  drumming r n s w -> drumming r n s' (fold_left (cv_step r n) cs w).
Proof.
  intros Hs Hc J St H. destruct (ok_ch_get _ _ Hs Hc) as (m & Hm & _).
  destruct (note_off_effect c p s s' cs m Hs Hc Hm St) as (Ed & Ec & st & So & Ks & Es).
  assert (Back := zset_back s s' c m (m_set_np m st) Hm ltac:(rewrite Es; reflexivity)).
  assert (Fd : forall i d, dev_at s i d -> note_off_dev s m c p d = off_dev d \/ note_off_dev s m c p d = d /\ note_off_calls s m c p d = []).
  { intros i d Hd. unfold note_off_dev, note_off_calls, retrig_calls, off_calls. destruct (serves_note c p d) eqn:Sv.
    - left. rewrite (served_alone h g s c p i d m J Hm Hd Sv). reflexivity.
    - right. split; [reflexivity|]. destruct (falls_back _ _ _ _); reflexivity. }
  apply (drum_kept r n s); [exact H|]. intros d' m' Hd On M Hm'. unfold dev_at in Hd. rewrite Ed in Hd. apply dev_map in Hd as (d & Hd & ->).
  destruct (Fd n d Hd) as [E|[E Cn]]; [rewrite E in On; discriminate On|]. rewrite E in *.
  assert (X : exists m2, ch_at s 9 m2 /\ m_range m' = m_range m2 /\ m_fine m' = m_fine m2) by (destruct (Back 9 m' Hm') as [[<- ->]|[_ X]]; [exists m|exists m']; auto).
  destruct X as (m2 & X1 & X2 & X3). exists d, m2. repeat (split; [assumption|]). split; [apply eff_same; auto|].
  intros x Hx. rewrite Ec in Hx. apply in_flat_map in Hx as (e & He & Hx). apply In_nth_error in He as [j Hj].
  assert (A : dev_at s (Z.of_nat j) e) by (unfold dev_at, zget; destruct (Z.ltb_spec (Z.of_nat j) 0); [lia|]; rewrite Nat2Z.id; exact Hj).
  assert (Ne : d_ops e = VFm -> d_num e <> n).
  { intros Eo. rewrite (numbered_ok _ Hs _ e A Eo). intros E'. rewrite E' in A. unfold dev_at in A, Hd. rewrite Hd in A. injection A as <-. rewrite Cn in Hx. destruct Hx. }
  unfold note_off_calls, retrig_calls, off_calls in Hx. destruct (falls_back _ _ _ _), (serves_note c p e); try (destruct Hx; fail);
    [destruct (m_porta m); [destruct Hx|]|]; destruct Hx as [<-|[]]; cbn [mild retrig_dev d_ops d_num d_set_pitch d_set_cents d_set_glide d_set_on]; destruct (d_ops e); try exact Logic.I; apply Ne; reflexivity.
Qed.
Lemma drum_press r n h g s c p v s' cs w : midi_ok s -> is_chan c -> MidiSpec.seven p -> v <> 0 -> chordal h g s -> (c = 9 -> (length (filter (fun x => (fst x =? 9)%Z) h) < 2)%nat) ->
  (forall m, ch_at s c m -> (length (keys (m_np m)) < 10)%nat) -> (length h < voices c (g c))%nat -> 0 <= n < 6 -> (forall d, dev_at s n d -> d_ops d = VFm) ->
  (forall m d, ch_at s' c m -> DevSpec.playable (pc_pitch (eff m (started m c p d))) = true) -> steps s (MNoteOn c p v) s' cs ->
  drumming r n s w -> drumming r n s' (fold_left (cv_step r n) cs w).
Proof.
  intros Hs Hc Hp Hv J N9 Lk L Hn Ov Pl St H.
  destruct (press_effect h g s c p v s' cs Hs Hc Hp Hv J N9 Lk L St) as (m0 & i & d & Hm0 & Ci & Hd & Off & R).
  destruct R as (m & d1 & Hm & Back & Ed & Ec & Gl & Op & Nu & Pm & Sm & Km & Bm & (Rm & Fm) & D1 & D2 & D3).
  assert (Hi : 0 <= i < Z.of_nat (length (md_dev s))) by (eapply zget_Some; exact Hd).
  destruct (Z.eq_dec i n) as [->|N].
  - intros e x He On M Hx. unfold dev_at in He. rewrite Ed, zget_zset_same in He by exact Hi. injection He as <-. change (c = 9) in M. subst c.
    destruct (Back 9 x Hx) as [[_ ->]|[X _]]; [|contradiction X; reflexivity]. rewrite Ec.
    assert (No := numbered_ok _ Hs n d Hd (Ov d Hd)). rewrite start_calls_split, fold_left_app. cbn [fold_left].
    rewrite Op, (Ov d Hd), Nu, No. destruct (tuneup_view r n m 9 p d1 w) as (_ & _ & T3). specialize (T3 ltac:(congruence)).
    set (w1 := fold_left (cv_step r n) (tuneup m 9 p d1) w) in *.
    fold (noted r n w1 (pc_pitch (eff m (started m 9 p d1))) (pc_cents (eff m (started m 9 p d1))) v).
    rewrite noted_eq by (apply Pl, Hm). cbv zeta. rewrite T3. change (9 =? 9) with true. cbv iota. cbn [cv_sv v_pre v_frq]. split; reflexivity.
  - apply (drum_kept r n s); [exact H|]. intros e x He On M Hx. unfold dev_at in He. rewrite Ed, zget_zset_other in He by congruence.
    assert (X : exists m2, ch_at s 9 m2 /\ m_range x = m_range m2 /\ m_fine x = m_fine m2) by (destruct (Back 9 x Hx) as [[<- ->]|[_ X]]; [exists m0|exists x]; auto).
    destruct X as (m2 & X1 & X2 & X3). exists e, m2. repeat (split; [assumption|]). split; [apply eff_same; auto|].
    intros y Hy. rewrite Ec in Hy. assert (Ne : d_ops d = VFm -> d_num d <> n) by (intros Eo; rewrite (numbered_ok _ Hs i d Hd Eo); exact N).
    unfold start_calls, sync_calls in Hy. cbn [prepared d_ops d_num d_set_pitch d_set_cents d_set_on d_set_midi] in Hy. rewrite Op, Nu in Hy.
    repeat (apply in_app_or in Hy as [Hy|Hy]); repeat match type of Hy with In _ (if ?b then _ else _) => destruct b end;
      try (destruct Hy; fail); destruct Hy as [<-|[]]; cbn [mild]; try exact Logic.I; destruct (d_ops d); try exact Logic.I; apply Ne; reflexivity.
Qed.

(** ** Playing *)
Definition steady_m (start : mop) (l : list mop) : Prop := forall a m b x, l = a ++ m :: b -> m = MProgram 9 x \/ m = MBend 9 x -> forall k, ~ In (9, k) (held (start :: a)).
Lemma steady_messages start play : steady_drums start play -> steady_m start (map message play).
Proof.
  intros H a m b x E. apply map_eq_app in E as (l1 & l2 & -> & <- & E). destruct l2 as [|op l2]; [discriminate|]. injection E as <- <-. exact (H l1 op l2 x eq_refl).
Qed.
Lemma drum_run start : asks_dynamic start -> forall ops s cs, boots_to ops s cs -> forall l, ops = MCallback true :: start :: l -> chords_m start l -> steady_m start l ->
  forall r n, 0 <= n < 6 -> drumming r n s (fold_left (cv_step r n) (skipn 4 cs) (cv0 r)).
Proof.
  intros A. apply (boots_ind (fun ops s cs => forall l, ops = MCallback true :: start :: l -> chords_m start l -> steady_m start l ->
    forall r n, 0 <= n < 6 -> drumming r n s (fold_left (cv_step r n) (skipn 4 cs) (cv0 r)))).
  { intros l [=]. }
  intros ops0 op s0 cs0 s cs B0 Hs0 IH Ho St l E Cl Sl r n Hn. destruct (boots_rest _ _ _ B0) as [t Et].
  assert (Fold : fold_left (cv_step r n) (skipn 4 (cs0 ++ cs)) (cv0 r) = fold_left (cv_step r n) cs (fold_left (cv_step r n) (skipn 4 cs0) (cv0 r))).
  { rewrite Et. cbn [skipn Datatypes.app first_calls]. apply fold_left_app. }
  apply snoc_split in E as [(-> & -> & ->)|(l0 & -> & El)].
  { destruct (chord_start _ _ _ _ _ A Ho B0 St) as (J & _). intros d m Hd On _ _. exfalso. destruct (cd_dev _ _ _ J n d Hd) as [_ X]. destruct (X On) as (_ & _ & X1 & _).
    assert (Hh : held [start] = []) by (destruct A as [(a & -> & _)|[(c & v & -> & _)|(u & ->)]]; reflexivity). rewrite Hh in X1. destruct X1. }
  assert (Cl0 : chords_m start l0) by (intros a m b Eq; apply (Cl a m (b ++ [op])); rewrite Eq, <- app_assoc; reflexivity).
  assert (Sl0 : steady_m start l0) by (intros a m b x Eq; apply (Sl a m (b ++ [op]) x); rewrite Eq, <- app_assoc; reflexivity).
  specialize (IH l0 El Cl0 Sl0 r n Hn). rewrite Fold. set (w := fold_left (cv_step r n) (skipn 4 cs0) (cv0 r)) in *.
  destruct (chord_run start A _ _ _ B0 l0 El Cl0) as (J & _). assert (Cm := Cl l0 op [] eq_refl). assert (Sm := Sl l0 op [] ). rewrite El in B0. set (ms := start :: l0) in *.
  assert (Nd : forall x, op = MProgram 9 x \/ op = MBend 9 x -> no_drum s0).
  { intros x Hx i d Hd On M. destruct (cd_dev _ _ _ J i d Hd) as [_ X]. destruct (X On) as (_ & _ & X1 & _). unfold key_of in X1. rewrite M in X1. exact (Sm x eq_refl Hx _ X1). }
  assert (ND : forall j d, dev_at s0 j d -> no_dac d).
  { apply (no_dac_boot _ _ _ B0). constructor; [intros (x & y & [=])|]. constructor; [destruct A as [(a & -> & _)|[(c & v & -> & _)|(u & ->)]]; intros (x & y & [=])|].
    apply Forall_forall. intros m Hin. apply in_split in Hin as (a & b & Eq). specialize (Cl0 a m b Eq). intros (x & y & ->). cbn [chord_msg] in Cl0. lia. }
  assert (Ov : forall d, dev_at s0 n d -> d_ops d = VFm).
  { intros d Hd. destruct (ok_dev _ _ _ Hs0 Hd) as [[(S1 & _) _] _]. destruct (S1 ltac:(lia)) as [_ [S3|[_ S3]]]; [exact S3|]. exfalso. exact (ND n d Hd S3). }
  assert (B1 := boots_snoc _ _ _ _ _ _ B0 Ho St).
  destruct op as [c p v|c p|c k v|c p|c b|data| | |cb]; cbn [mop_ok chord_msg] in *; try contradiction.
  - destruct Ho as (Hc & Hp & Hv7). destruct (Z.eqb_spec v 0) as [->|Hv]; [exact (drum_release r n _ _ _ c p _ _ w Hs0 Hc J St IH)|].
    destruct Cm as [->|(N9 & Nh & L & L1 & L2 & L3)]; [contradiction|].
    apply (drum_press r n (held ms) (group ms) s0 c p v s cs w); try assumption.
    + exact (few_keys ms s0 cs0 c B0 L).
    + intros m d Hm. exact (key_playable ms s (cs0 ++ cs) c p v m d B1 Hm L1 L2 L3).
  - destruct Ho as (Hc & _). exact (drum_release r n _ _ _ c p _ _ w Hs0 Hc J St IH).
  - destruct Ho as (Hc & Hk & Hv). exact (drum_cc r n _ _ _ c k v _ _ w Hs0 Hc Hv J Cm St IH).
  - destruct Ho as (Hc & _). apply (drum_program r n (held ms) (group ms) s0 c p); try assumption. intros ->. exact (Nd p (or_introl eq_refl)).
  - destruct Ho as (Hc & _). apply (drum_bend r n (held ms) (group ms) s0 c b); try assumption. intros ->. exact (Nd b (or_intror eq_refl)).
  - exact (drum_frame r n _ _ _ _ _ w Hs0 J St IH).
Qed.

(** After a General MIDI reset: the chords and the drums. *)
Theorem chord_song_drums r hw mem start play : rom_ok r -> mem_ok mem -> Forall aop_ok (AMsg start :: play) -> gm_reset_msg start -> chords start play ->
  let ms := start :: map message play in
  exists s tr voice, history r hw mem (AMsg start :: play) s tr /\
    (forall x, In x (held ms) -> 0 <= voice x < 10) /\
    (forall x y, In x (held ms) -> In y (held ms) -> voice x = voice y -> x = y) /\
    (forall n, 0 <= n < 6 -> (exists x, In x (held ms) /\ voice x = n) /\ key_state tr n = Some true \/
                             ~ (exists x, In x (held ms) /\ voice x = n) /\ key_state tr n = Some false) /\
    ((fm_only start play -> forall x, In x (held ms) -> voice x < 6) /\ forall k, In (9, k) (held ms) -> voice (9, k) < 6) /\
    (forall c k, In (c, k) (held ms) -> c <> 9 -> voice (c, k) < 6 -> let n := voice (c, k) in let t := settings ms c in
      let p := nth (Z.to_nat (st_prog t)) (rom_presets r) no_preset in let x := pitched ms c k in
      (0 <= bent ms c k < 25600 -> 0 <= x < 25600 -> chip_freq tr n = Some (fm_note r (x / 100) (x mod 100))) /\
      plays_preset (ym_regs tr) n p /\ chip_st (ym_regs tr) n = Some (pan_side (st_pan t)) /\
      (n <> 2 \/ without sm_note play -> plays_level (ym_regs tr) n p (loudness (st_vol t) (struck ms (c, k))))) /\
    (steady_drums start play -> forall k, In (9, k) (held ms) -> let n := voice (9, k) in let t := settings ms 9 in let x := pitched ms 9 k in
      let p := fst (drum r (x / 100)) in 0 <= bent ms 9 k < 25600 -> 0 <= x < 25600 ->
      chip_freq tr n = Some (fm_note r (snd (drum r (x / 100))) (x mod 100)) /\
      plays_preset (ym_regs tr) n p /\ chip_st (ym_regs tr) n = Some (pan_side (st_pan t)) /\
      (n <> 2 \/ without sm_note play -> plays_level (ym_regs tr) n p (loudness (st_vol t) (struck ms (9, k))))).
Proof.
  intros Hr Hm Ho A C ms. assert (A' : asks_dynamic start) by (right; right; exact A).
  destruct (chord_song r hw mem start play Hr Hm Ho A C) as (s & tr & voice & H & H1 & H2 & H3 & H4 & H5 & H6 & H7). fold ms in H1, H2, H3, H4, H5, H6, H7.
  exists s, tr, voice. repeat (split; [assumption|]). intros Sd k Hx n t x p L1 L2. destruct (H5 _ Hx) as (d & Hd & On & K). fold n in Hd.
  assert (Lv : n < 6) by (apply H4, Hx). assert (Hn : 0 <= n < 6) by (assert (Y := H1 _ Hx); fold n in Y; lia). unfold key_of in K. injection K as K1 K2.
  destruct (song_without _ _ A C) as (Wm & W78 & W77 & Wr & Wst & We).
  destruct (history_played _ _ _ _ _ _ H) as (Hi & cs & B & P). assert (Rw := history_not_raw _ _ _ B Wr). assert (Hs := boots_ok _ _ _ B).
  assert (Kp := history_keeps _ _ _ B We Wst). assert (Cal := history_calm _ _ _ B). cbn [map message] in B. fold ms in B.
  destruct (chord_run start A' _ _ _ B (map message play) eq_refl (chords_messages _ _ C)) as (J & _).
  assert (Dr := drum_run start A' _ _ _ B (map message play) eq_refl (chords_messages _ _ C) (steady_messages _ _ Sd) r n Hn).
  assert (C9 : is_chan 9) by (unfold is_chan; lia). destruct (ok_ch_get _ _ Hs C9) as (m & Hmm & _). destruct (Dr d m Hd On K1 Hmm) as [E1 E2].
  destruct (cd_dev _ _ _ J n d Hd) as [_ X]. destruct (X On) as (_ & X2 & _ & X4 & X5).
  destruct (key_tune ms _ _ 9 m d k B Hmm K2 X2 (X5 m ltac:(rewrite K1; exact Hmm)) L1 L2) as [T1 T2].
  destruct (played_view r Hr mem Hm n cs _ _ Hn P (boots_calls_ok _ _ _ B)) as (Vo & V2 & _ & (V1 & _ & V3 & V) & _).
  destruct (V (cv_raw_free_all r n _ (cv0 r) Rw eq_refl)) as [_ Vf].
  destruct (cv_clean_all r n (skipn 4 cs) (cv0 r) Kp (conj eq_refl eq_refl)) as [Ed _]. specialize (V3 Ed). rewrite E1, T1 in V3. fold x p in V3.
  assert (Ld := cv_loud_all r n (skipn 4 cs) (cv0 r) Cal eq_refl).
  split; [rewrite Vf, E2; unfold drum_tune; rewrite T1, T2, octave_key; reflexivity|].
  assert (Sy : synth_ok (v_synth (a_dev s))) by (apply (history_synth_ok r hw mem _ s tr H)).
  split; [|split].
  - destruct (c13_app _ _ _ _ _ _ H Wr) as [_ M]. destruct (M n Hn) as (ch & Hch & (M1 & M2 & _ & M4 & M5 & M6) & _).
    assert (Z := zget_chn _ Sy n Hn). rewrite Hch in Z. injection Z as Z. rewrite <- Z in V3. rewrite <- V3. unfold plays_preset, chan_preset. cbn [p_alg p_fb p_ams p_fms p_ops].
    repeat (split; [assumption|]). exact M6.
  - unfold t. rewrite <- K1. exact (side_settings r hw mem _ s tr H n Hn d Hd On Wm W78 Wr W77).
  - intros Hsm. assert (Hsm' : n <> 2 \/ without sm_note (AMsg start :: play)).
    { destruct Hsm as [Hsm|Hsm]; [left; exact Hsm|right]. intros y [[= <-]|Hin]; [destruct A as (u & ->); intros (? & ? & ? & [=] & _)|exact (Hsm y Hin)]. }
    destruct (tone r hw mem _ s tr H n Hn d Hd On Wm W78 false false ltac:(discriminate) ltac:(discriminate)) as (w' & cs' & k' & B' & P' & Ew & V' & _ & _ & Vo' & _).
    destruct V' as (Q1 & _). rewrite K1 in Vo'. change (settings (map message (AMsg start :: play))) with (settings ms) in Vo'. fold t in Vo'.
    rewrite <- Vo, <- V2, <- V1, Q1, Vo' in Ld. unfold n in Ld at 2. rewrite (H6 _ Hx Lv) in Ld.
    intros o Ho'. rewrite (chip_levels r hw mem _ s tr H n Hn Wm Wr We Wst Hsm' o Ho'), Ld. rewrite <- V3. unfold chan_preset. cbn [p_alg p_ops].
    exists (opr (v_synth (a_dev s)) n o). split; [|reflexivity]. apply zget_oper; [apply chn_ok; [exact Sy|exact Hn]|exact Ho'].
Qed.
