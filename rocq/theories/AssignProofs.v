(** Assignments asked for are the ones in force. *)
From Verif Require Import Base BaseLemmas PitchModel PitchSpec PitchProofs NotePriorityModel NotePriorityProofs SynthModel SynthSpec.
From Verif Require Import MidiModel MidiSpec MidiProofs MidiOkProofs MidiEqProofs MidiEffectProofs MidiNoteProofs MidiHistProofs MidiMapProofs MidiStaticProofs MidiPlaceProofs AssignSpec.

Definition fixed_map (f : Z -> Z) (s : midi) : Prop := md_dyn s = false /\ forall i d, dev_at s i d -> d_midi d = f i.
Lemma fixed_devs f s s' : md_dyn s' = md_dyn s ->
  (forall i d', dev_at s' i d' -> exists d, dev_at s i d /\ d_midi d' = d_midi d) ->
  fixed_map f s -> fixed_map f s'.
Proof. intros Hd H [H1 H2]. split; [congruence|]. intros i d' Hd'. destruct (H i d' Hd') as (d & Hdd & ->). apply (H2 i d Hdd). Qed.
Lemma map_same s (f : dev -> dev) i d' : (forall d, d_midi (f d) = d_midi d) -> zget (map f (md_dev s)) i = Some d' -> exists d, dev_at s i d /\ d_midi d' = d_midi d.
Proof. intros Hf H. apply dev_map in H as (d & Hd & ->). eauto. Qed.
Lemma one_same s i d d' j x : dev_at s i d -> d_midi d' = d_midi d -> zget (zset (md_dev s) i d') j = Some x -> exists y, dev_at s j y /\ d_midi x = d_midi y.
Proof.
  intros Hd Hm H. destruct (Z.eq_dec j i) as [->|Hj].
  - rewrite zget_zset_same in H by (eapply zget_Some; exact Hd). injection H as <-. eauto.
  - rewrite zget_zset_other in H by congruence. eauto.
Qed.
Lemma given f s i d a : fixed_map f s -> dev_at s i d -> fixed_map (give f i a) (md_set_dev s (zset (md_dev s) i (d_set_midi d a))).
Proof.
  intros [H1 H2] Hd. split; [exact H1|]. intros j x. unfold dev_at, give. cbn [md_dev md_set_dev]. intros Hx. destruct (Z.eqb_spec j i) as [->|Hj].
  - rewrite zget_zset_same in Hx by (eapply zget_Some; exact Hd). injection Hx as <-. reflexivity.
  - rewrite zget_zset_other in Hx by congruence. apply H2, Hx.
Qed.
Lemma fixed_find f s c : midi_ok s -> fixed_map f s ->
  first_dev (md_dev s) (fun d => d_midi d =? c) (upto 0 12) = find (fun i => f i =? c) [0; 1; 2; 3; 4; 5; 6; 7; 8; 9; 10; 11; 12].
Proof.
  intros Hs [_ H]. change (upto 0 12) with [0; 1; 2; 3; 4; 5; 6; 7; 8; 9; 10; 11; 12]. unfold first_dev.
  assert (F : Forall (fun i => 0 <= i < 13) [0; 1; 2; 3; 4; 5; 6; 7; 8; 9; 10; 11; 12]) by (repeat constructor; lia).
  induction F as [|i t Hi _ IH]; [reflexivity|]. cbn [find]. destruct (zget_in_range (md_dev s) i) as [d Hd]; [destruct Hs as [-> _]; lia|].
  rewrite Hd, (H i d Hd). destruct (f i =? c); [reflexivity|exact IH].
Qed.
Lemma done_bind {A B} (a : A) (k : A -> wres B) : wbind (WDone a []) k = k a.
Proof. exact (wbind_ret a k). Qed.
Lemma fixed_remap f s s' a b : midi_ok s -> fixed_map f s -> 0 <= a -> 0 <= b -> midi_remap_channel a b s = WDone s' [] ->
  fixed_map (reassign f (own_sysex 0 [a; b])) s'.
Proof.
  intros Hs Hf Ha Hb. cbn [own_sysex Datatypes.app reassign]. change ((0 =? 0) && (34 =? 34) && (119 =? 119) && (0 =? 0)) with true. cbn [andb]. unfold midi_remap_channel, UNASSIGNED, MIDI_CHANNELS, DEV_CHANS.
  destruct (Z.eqb_spec a 127) as [->|Na]; cbn [negb andb orb].
  2: destruct (Z.leb_spec 16 a) as [L|L]; [replace (a <? 16) with false by lia; cbn [orb]; intros [= <-]; exact Hf|replace (a <? 16) with true by lia; cbn [orb]].
  1: change (127 <? 16) with false; cbn [orb].
  all: destruct (Z.eqb_spec b 127) as [->|Nb]; [|destruct (Z.leb_spec 13 b) as [L'|L']; [replace (b <? 13) with false by lia; intros [= <-]; exact Hf|replace (b <? 13) with true by lia]].
  1, 3: (unfold deviceChannelByMidiChannel, DEV_CHANS; change (13 - 1) with 12; rewrite find_upto by (lia || apply Hs); rewrite (fixed_find f s _ Hs Hf), done_bind;
    destruct (find _ _) as [i|] eqn:Ef; [|intros [= <-]; exact Hf];
    assert (Hi : 0 <= i < 13) by (apply find_some in Ef as [Hi _]; cbn [In] in Hi; lia);
    destruct (zget_in_range (md_dev s) i) as [d Hd]; [destruct Hs as [-> _]; lia|]; rewrite (wget_Some _ _ _ Hd), wbind_ret; intros [= <-]; exact (given f s i d _ Hf Hd)).
  all: destruct (zget_in_range (md_dev s) b) as [d Hd]; [destruct Hs as [-> _]; lia|]; rewrite (wget_Some _ _ _ Hd), wbind_ret; intros [= <-]; exact (given f s b d _ Hf Hd).
Qed.
Lemma reassign_sysex f data : reassign f (MSysex data) = f \/ exists a b, data = [0x00; 0x22; 0x77; 0x00; a; b].
Proof.
  destruct data as [|x [|y [|z [|w [|c [|k [|? ?]]]]]]]; try (left; reflexivity). cbn [reassign].
  destruct (Z.eqb_spec x 0) as [->|]; [|left; reflexivity]. destruct (Z.eqb_spec y 0x22) as [->|]; [|left; reflexivity].
  destruct (Z.eqb_spec z 0x77) as [->|]; [|left; reflexivity]. destruct (Z.eqb_spec w 0) as [->|]; [|left; reflexivity]. right. eauto.
Qed.
Lemma remap_msg a b s : midi_sysex [0x00; 0x22; 0x77; 0x00; a; b] s = midi_remap_channel a b s.
Proof.
  transitivity (wbind (wret 0) (fun _ => wbind (wret a) (fun a => wbind (wret b) (fun b => midi_remap_channel a b s)))); [reflexivity|]. rewrite !wbind_ret. reflexivity.
Qed.
Lemma fixed_step f op s s' o : ~ asks_mode op -> mop_ok op -> midi_ok s -> fixed_map f s -> steps s op s' o -> fixed_map (reassign f op) s'.
Proof.
  intros Hr Hop Hs Hst E. unfold steps in E.
  assert (Koff : forall c p, is_chan c -> midi_note_off c p s = WDone s' o -> fixed_map f s').
  { intros c p Hc E1. destruct (ok_ch_get _ _ Hs Hc) as (m & Hm & _).
    destruct (note_off_effect _ _ _ _ _ m Hs Hc Hm E1) as (_ & _ & st & _ & _ & ->).
    apply (fixed_devs f s); [reflexivity| |exact Hst]. intros i d'. apply map_same, note_off_midi. }
  assert (Kid : forall i d', dev_at s i d' -> exists d, dev_at s i d /\ d_midi d' = d_midi d) by eauto.
  destruct op as [c p v|c p|c k v|c p|c b|data| | |cb]; cbn [midi_step mop_ok] in *.
  - cbn [reassign]. destruct Hop as (Hc & Hp & _). destruct (Z.eqb_spec v 0) as [->|Hv]; [apply (Koff c p); auto|].
    destruct (ok_ch_get _ _ Hs Hc) as (m & Hm & _).
    destruct (midi_note_on_eq c p v s m Hs Hc Hp Hv Hm) as (s1 & o1 & E2 & R). rewrite E in E2. injection E2 as <- <-.
    destruct R as [|i d st Ht Ci Hd _ _ _ Hpo _|i d st Ht Ci Hd _ _ Ek _|i d Ht Ci Hd _]; [exact Hst| | |];
      destruct (chosen_cases _ _ _ _ _ Ci Hd) as (_ & Hmi & _); specialize (Hmi (proj1 Hst));
      (apply (fixed_devs f s); [reflexivity| |exact Hst]); intros j x; apply (one_same s i d); try exact Hd.
    + reflexivity.
    + destruct (started_note (m_set_vel (m_set_np m st) v) c p (d_set_glide d 0)) as (_ & -> & _). auto.
    + destruct (started_note m c p d) as (_ & -> & _). auto.
  - destruct Hop. apply (Koff c p); assumption.
  - destruct Hop as (Hc & Hk & Hv). destruct (ok_ch_get _ _ Hs Hc) as (m & Hm & _).
    destruct (midi_cc_result _ _ _ _ m _ _ Hs Hc Hv Hm E) as (o' & R & _). clear E.
    assert (Hk84 : k <> 84) by (intros ->; apply Hr; left; exists c, v; reflexivity). cbn [reassign].
    destruct (Z.eqb_spec k 121) as [->|N121].
    + destruct R as [m' Hf|Hk'|Hk'|Hk'|s1 Hk' E|Hk'|s1 o1 Hk' E|Hk' _|Hk' _|Hk'|o1 Hk' _|Hk'|devs o1 Hk' HH]; try (exfalso; lia); [discriminate Hf| |exfalso; apply Hk'; cbn; tauto].
      rewrite (resetAll_eq _ _ Hs Hc) in E. injection E as <- _. destruct Hst as [H1 H2].
      split; [exact H1|]. intros i d'. unfold dev_at. cbn [md_dev]. rewrite zget_assign, H1.
      destruct (zget _ i); [|discriminate]. intros [= <-]. reflexivity.
    + destruct R as [m' Hf|Hk'|Hk'|Hk'|s1 Hk' E|Hk'|s1 o1 Hk' E|Hk' _|Hk' _|_|o1 Hk' _|_|devs o1 Hk' HH];
        try exact Hst; try contradiction; try (apply (fixed_devs f s); [reflexivity| |exact Hst]);
        try exact Kid; try (intros i d'; apply map_same; intros d; apply at_chan_midi; reflexivity).
      destruct HH as [[-> _]|(-> & _)]; [exact Kid|]. intros i d'. unfold dev_at. cbn [md_dev md_set_dev].
      rewrite dac_devs_get. destruct (zget (md_dev s) i) as [d|]; [|discriminate]. intros [= <-].
      exists d. split; [reflexivity|]. unfold dac_dev. destruct (i =? 5); reflexivity.
  - destruct Hop as (Hc & _). destruct (ok_ch_get _ _ Hs Hc) as (m & Hm & _).
    rewrite (midi_program_eq _ _ _ m Hm) in E. injection E as <- <-.
    apply (fixed_devs f s); [reflexivity| |exact Hst]. intros i d'; apply map_same; intros d; apply at_chan_midi; reflexivity.
  - destruct Hop as (Hc & _). destruct (ok_ch_get _ _ Hs Hc) as (m & Hm & _).
    rewrite (midi_pitch_bend_eq _ _ _ m Hm) in E. injection E as <- <-.
    apply (fixed_devs f s); [reflexivity| |exact Hst]. intros i d'; apply map_same; intros d; apply at_chan_midi.
    intros e. destruct (d_on e); reflexivity.
  - destruct (reassign_sysex f data) as [R|(a & b & ->)].
    + rewrite R. apply midi_sysex_result in E. destruct E as [|t s1 o1 Ed E|a b s1 Ed E|a Ed|a Ed|a Ed|a Ed|o1 _]; try exact Hst.
      * exfalso. apply Hr. right; right. exists t. rewrite Ed. reflexivity.
      * rewrite <- R, Ed. destruct Hop as [Hop _]. rewrite Ed in Hop. unfold seven in Hop.
        apply (fixed_remap f s s1 a b Hs Hst); [| |exact E]; rewrite Forall_forall in Hop; assert (X := Hop a); assert (Y := Hop b); cbn [In] in X, Y; [apply X|apply Y]; tauto.
      * exfalso. apply Hr. right; left. exists [a]. rewrite Ed. reflexivity.
    + rewrite remap_msg in E. destruct Hop as [Hop _].
      assert (o = []) by exact (remap_quiet _ _ _ _ _ E). subst o.
      apply (fixed_remap f s s' a b Hs Hst); [| |exact E]; rewrite Forall_forall in Hop; assert (X := Hop a); assert (Y := Hop b); unfold seven in *; cbn [In] in X, Y; [apply X|apply Y]; tauto.
  - unfold reset in E. do 3 apply emit_inv in E as (? & E & ->). cbv zeta in E.
    rewrite reset_channels_eq in E by apply Hs. injection E as <- <-. split; [reflexivity|].
    intros i d' Hd'. apply reset_dev_get in Hd' as (Hi & d & Hd & ->); [|apply Hs]. reflexivity.
  - rewrite (midi_tick_eq _ Hs) in E. injection E as <- <-.
    apply (fixed_devs f s); [reflexivity| |exact Hst]. intros i d'; apply map_same. intros d. apply tick_same.
  - injection E as <- <-. exact Hst.
Qed.
Lemma fixed_boot ops s o : Forall (fun op => ~ asks_mode op) ops -> boots_to ops s o -> midi_ok s /\ fixed_map (assigned ops) s.
Proof.
  intros HP Hb.
  apply (boot_induction reassign (fun i => i) (fun op => ~ asks_mode op) fixed_map) with (o := o); [| |exact HP|exact Hb].
  - split; [reflexivity|]. intros i d Hd. apply (booted_dev i d Hd).
  - intros op h s0 s' o' H1 H2 H3 H4 H5 H6. apply (fixed_step h op s0 s' o'); assumption.
Qed.

(** A MIDI channel with one device channel, and one with none. *)
Lemma sole_count c k l : forall j, (forall i d, zget l i = Some d -> (d_midi d =? c) = (j + i =? k)) ->
  voice_count c false l = if (j <=? k) && (k <? j + Z.of_nat (length l)) then 1 else 0.
Proof.
  induction l as [|d t IH]; intros j Hk; cbn [voice_count length].
  - destruct (Z.leb_spec j k), (Z.ltb_spec k (j + Z.of_nat 0)); cbn; lia.
  - rewrite (IH (j + 1)).
    + rewrite (Hk 0 d eq_refl), andb_true_r.
      destruct (Z.eqb_spec (j + 0) k), (Z.leb_spec (j + 1) k), (Z.leb_spec j k),
        (Z.ltb_spec k (j + 1 + Z.of_nat (length t))), (Z.ltb_spec k (j + Z.of_nat (S (length t)))); cbn; lia.
    + intros i e He. assert (Hi := zget_Some _ _ _ He). replace (j + 1 + i) with (j + (i + 1)) by lia. apply Hk.
      rewrite zget_cons. replace (i + 1 =? 0) with false by lia. replace (i + 1 - 1) with i by lia. exact He.
Qed.
Lemma sole_starts f s c k p v s' o m d : midi_ok s -> is_chan c -> c <> 9 -> seven p -> v <> 0 -> fixed_map f s -> only f c k -> 0 <= k < 13 -> dev_at s k d -> ch_at s c m ->
  (length (keys (m_np m)) < 10)%nat -> m_porta m = false -> steps s (MNoteOn c p v) s' o ->
  exists st, o = start_calls (m_set_vel (m_set_np m st) v) c p v (d_set_glide d 0).
Proof.
  intros Hs Hc N9 Hp Hv [H1 H2] On Hk13 Hd Hm Hk Hpo E. unfold steps in E; cbn [midi_step] in E.
  destruct (midi_note_on_eq c p v s m Hs Hc Hp Hv Hm) as (s1 & o1 & E2 & R). rewrite E in E2. injection E2 as <- <-.
  assert (Dk : d_midi d = c) by (rewrite (H2 k d Hd); apply On; [exact Hk13|reflexivity]).
  assert (Ik : forall i e, chosen s m c = Some i -> zget (md_dev s) i = Some e -> i = k).
  { intros i e Ci He. destruct (chosen_cases _ _ _ _ _ Ci He) as (_ & X & _). apply On; [destruct (ok_dev _ _ _ Hs He); assumption|]. rewrite <- (H2 i e He). exact (X H1). }
  destruct R as [[Ht|[Ht|[_ Ht]]]|i e st Ht Ci He _ _ _ Hpo' _|i e st Ht Ci He _ _ Ek _|i e Ht Ci He Hvc].
  - exfalso. unfold tooManyPercussiveNotes in Ht. destruct (Z.eqb_spec c PERCUSSION) as [X|X]; [unfold PERCUSSION in X; lia|discriminate].
  - exfalso. unfold chosen in Ht. destruct (device_min_max (m_sel m)) as [lo hi]. rewrite H1 in Ht.
    destruct (first_dev _ _ _) in Ht; [discriminate|]. cbn [orelse] in Ht. unfold by_midi in Ht.
    assert (X := first_dev_none _ _ _ _ k d Ht ltac:(lia) Hd). cbv beta in X. rewrite Dk in X. lia.
  - lia.
  - congruence.
  - assert (i = k) by (eapply Ik; eassumption). subst i. unfold dev_at in Hd. rewrite Hd in He. injection He as <-. exists st. reflexivity.
  - exfalso. apply Hvc. rewrite (sole_count c k (md_dev s) 0).
    + destruct Hs as [-> _]. replace (0 <=? k) with true by lia. replace (k <? 0 + Z.of_nat 13) with true by lia. reflexivity.
    + intros j x Hx. rewrite (H2 j x Hx). destruct (ok_dev _ _ _ Hs Hx) as [_ Hi]. specialize (On j Hi). destruct (Z.eqb_spec (f j) c), (Z.eqb_spec (0 + j) k); reflexivity || lia.
Qed.
Lemma none_starts f s c p v s' o : midi_ok s -> is_chan c -> seven p -> v <> 0 -> fixed_map f s -> (forall i, 0 <= i < 13 -> f i <> c) ->
  steps s (MNoteOn c p v) s' o -> s' = s /\ o = [].
Proof.
  intros Hs Hc Hp Hv [H1 H2] No E. unfold steps in E; cbn [midi_step] in E. destruct (ok_ch_get _ _ Hs Hc) as (m & Hm & _).
  destruct (midi_note_on_eq c p v s m Hs Hc Hp Hv Hm) as (s1 & o1 & E2 & R). rewrite E in E2. injection E2 as <- <-.
  destruct R as [_|i e st Ht Ci He _ _ _ Hpo' _|i e st Ht Ci He _ _ Ek _|i e Ht Ci He Hvc]; [auto|exfalso..];
    (destruct (chosen_cases _ _ _ _ _ Ci He) as (_ & X & _); apply (No i); [destruct (ok_dev _ _ _ Hs He); assumption|]; rewrite <- (H2 i e He); exact (X H1)).
Qed.
