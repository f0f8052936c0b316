(** Claims about which device channel serves what: percussion, static mapping. *)
From Verif Require Import Base BaseLemmas PitchModel PitchProofs NotePriorityModel NotePriorityProofs SynthModel.
From Verif Require Import MidiModel MidiSpec MidiProofs MidiOkProofs MidiEqProofs MidiEffectProofs MidiNoteProofs MidiHistProofs.

(** ** Counting *)
Lemma filter_le {A} (f : A -> bool) : forall l l' : list A,
  (forall i x', zget l' i = Some x' -> exists x, zget l i = Some x /\ (f x' = true -> f x = true)) ->
  (length (filter f l') <= length (filter f l))%nat.
Proof.
  intros l l'; revert l; induction l' as [|x' t' IH]; intros l H; [cbn; lia|].
  destruct (H 0 x' eq_refl) as (x & Hx & Hf). destruct l as [|y t]; [discriminate|]. injection Hx as ->.
  assert (IHt : (length (filter f t') <= length (filter f t))%nat).
  { apply IH. intros i z Hz. destruct (H (i + 1) z) as (w & Hw & Hwf).
    - rewrite zget_cons. assert (Hi := zget_Some _ _ _ Hz). replace (i + 1 =? 0) with false by lia.
      replace (i + 1 - 1) with i by lia. exact Hz.
    - exists w. split; [|exact Hwf]. rewrite zget_cons in Hw. assert (Hi := zget_Some _ _ _ Hz).
      replace (i + 1 =? 0) with false in Hw by lia. replace (i + 1 - 1) with i in Hw by lia. exact Hw. }
  cbn [filter]. destruct (f x'); [rewrite (Hf eq_refl); cbn; lia|]. destruct (f x); cbn; lia.
Qed.
Lemma filter_one {A} (f : A -> bool) : forall (l : list A) k,
  (forall i x, zget l i = Some x -> f x = true -> i = k) -> (length (filter f l) <= 1)%nat.
Proof.
  induction l as [|x t IH]; intros k H; [cbn; lia|].
  assert (Ht : forall i y, zget t i = Some y -> f y = true -> i = k - 1).
  { intros i y Hy Hf. assert (Hi := zget_Some _ _ _ Hy). enough (i + 1 = k) by lia. apply (H (i + 1) y); [|exact Hf].
    rewrite zget_cons. replace (i + 1 =? 0) with false by lia. replace (i + 1 - 1) with i by lia. exact Hy. }
  cbn [filter]. destruct (f x) eqn:E; [|apply (IH (k - 1)), Ht].
  assert (k = 0) by (symmetry; apply (H 0 x); [reflexivity|exact E]). subst k.
  destruct (filter f t) as [|y r] eqn:Er; [cbn; lia|].
  assert (Hin : In y (filter f t)) by (rewrite Er; left; reflexivity). apply filter_In in Hin as [Hin Hy].
  destruct (In_zget _ _ Hin) as [i Hi]. specialize (Ht i y Hi Hy). assert (Hj := zget_Some _ _ _ Hi). lia.
Qed.
Lemma filter_upd {A} (f : A -> bool) : forall (l : list A) n y, (length (filter f (upd l n y)) <= S (length (filter f l)))%nat.
Proof.
  induction l as [|x t IH]; intros n y; [destruct n; cbn; lia|]. destruct n as [|n]; cbn [upd filter].
  - destruct (f y), (f x); cbn; lia.
  - specialize (IH n y). destruct (f x); cbn; lia.
Qed.
Lemma filter_zset {A} (f : A -> bool) (l : list A) i y : (length (filter f (zset l i y)) <= S (length (filter f l)))%nat.
Proof. unfold zset. destruct (i <? 0); [lia|apply filter_upd]. Qed.

(** ** Percussion *)
Definition perc (d : dev) : bool := (d_midi d =? 9) && d_on d.
Lemma perc_loop_count : forall l n, n < 2 ->
  perc_loop l n = (2 <=? n + Z.of_nat (length (filter perc l))).
Proof.
  induction l as [|d t IH]; intros n Hn; cbn [perc_loop filter].
  - cbn. symmetry. apply Z.leb_gt. lia.
  - unfold perc at 1. unfold PERCUSSION. destruct (d_midi d =? 9); cbn [andb]; [|apply IH, Hn].
    destruct (d_on d); cbn [length].
    + destruct (Z.leb_spec 2 (n + 1)); [symmetry; apply Z.leb_le; lia|]. rewrite IH by lia. f_equal. lia.
    + destruct (Z.leb_spec 2 n); [lia|]. apply IH, Hn.
Qed.
Lemma too_many_count s : tooManyPercussiveNotes s 9 = (2 <=? percussion_notes s)%nat.
Proof.
  unfold tooManyPercussiveNotes. cbn [negb Z.eqb Pos.eqb PERCUSSION]. rewrite perc_loop_count by lia.
  unfold percussion_notes. fold perc. destruct (Nat.leb_spec 2 (length (filter perc (md_dev s)))); [apply Z.leb_le|apply Z.leb_gt]; lia.
Qed.

Lemma glide_on n d : d_on (glide_dev n d) = d_on d.
Proof. unfold glide_dev. destruct (_ || _); [reflexivity|]. cbv zeta. destruct (_ || _); reflexivity. Qed.
Lemma tick_same chs d : d_midi (tick_dev chs d) = d_midi d /\ d_on (tick_dev chs d) = d_on d.
Proof.
  unfold tick_dev. destruct (zget _ _); [|auto]. destruct (_ && _ && _); [|auto].
  rewrite glide_midi, glide_on. auto.
Qed.
Lemma fate_perc op s d d' : fate op s d d' -> ~ remapping op -> perc d' = true -> perc d = true.
Proof.
  unfold perc. intros F Hr H. apply andb_prop in H as [H1 H2].
  destruct F as [[F _]|[(F1 & F2 & _)|[[_ F]|[_ ->]]]]; [congruence| |contradiction|].
  - rewrite F1 in H2. rewrite F2 in H1. rewrite H1, H2. reflexivity.
  - destruct (tick_same (md_ch s) d) as [F1 F2]. rewrite F1 in H1. rewrite F2 in H2. rewrite H1, H2. reflexivity.
Qed.

(** After a mapping-mode change, polyphonic mode or Reset All Controllers the
    only device channel that can serve the percussion channel is number 9. *)
Lemma remap_to_nine op s s' o :
  midi_ok s -> mop_ok op -> steps s op s' o -> is_cc 84 op \/ is_cc 121 op \/ is_sysex_cmd 3 op ->
  (forall i d', dev_at s' i d' -> d_midi d' = 9 -> i = 9) \/ s' = s.
Proof.
  intros Hs Hop E [(c & v & ->)|[(c & v & ->)|(l & ->)]]; unfold steps in E; cbn [midi_step mop_ok] in *.
  - destruct Hop as (Hc & _ & Hv). destruct (ok_ch_get _ _ Hs Hc) as (m & Hm & _).
    destruct (midi_cc_result _ _ _ _ m _ _ Hs Hc Hv Hm E) as (o' & R & _). left. intros i d' Hd Hn.
    inversion R; subst; try lia.
    + unfold cc_field in *. discriminate.
    + match goal with H : set_polyphonic_mode _ _ = _ |- _ => destruct (set_poly_eq _ _ _ _ Hs H) as (_ & _ & _ & _ & _ & _ & _ & Hz) end.
      unfold dev_at in Hd. rewrite Hz in Hd. destruct (zget (md_dev s) i); [|discriminate]. injection Hd as <-. cbn [d_midi d_set_midi] in Hn.
      unfold UNASSIGNED in Hn. destruct (negb _); [destruct (i <=? 5); lia|exact Hn].
    + match goal with H : ~ In _ _ |- _ => exfalso; apply H; cbn; tauto end.
  - destruct Hop as (Hc & _ & Hv). destruct (ok_ch_get _ _ Hs Hc) as (m & Hm & _).
    destruct (midi_cc_result _ _ _ _ m _ _ Hs Hc Hv Hm E) as (o' & R & _). left. intros i d' Hd Hn.
    inversion R; subst; try lia.
    + unfold cc_field in *. discriminate.
    + match goal with H : resetAllControllers _ _ = _ |- _ => rewrite (resetAll_eq _ _ Hs Hc) in H; injection H as <- _ end.
      unfold dev_at in Hd. cbn [md_dev] in Hd. rewrite zget_assign in Hd. destruct (zget _ i) in Hd; [|discriminate].
      injection Hd as <-. cbn [d_midi d_set_midi] in Hn. unfold UNASSIGNED in Hn. destruct (md_dyn s); lia.
    + match goal with H : ~ In _ _ |- _ => exfalso; apply H; cbn; tauto end.
  - apply midi_sysex_result in E. inversion E; subst; try discriminate; try (right; reflexivity).
    left. intros i d' Hd Hn. unfold dev_at in Hd. rewrite set_dynamic_dev in Hd. destruct (zget (md_dev s) i); [|discriminate].
    injection Hd as <-. cbn [d_midi d_set_midi] in Hn. unfold UNASSIGNED in Hn. destruct (negb (a =? 0)); [lia|exact Hn].
Qed.

Lemma perc_step op (h : unit) s s' o :
  ~ is_sysex_cmd 0 op -> mop_ok op -> midi_ok s -> (percussion_notes s <= 2)%nat -> steps s op s' o -> midi_ok s' ->
  (percussion_notes s' <= 2)%nat.
Proof.
  intros Hx Hop Hs Hn E _.
  assert (Hdec : (is_cc 84 op \/ is_cc 121 op \/ is_sysex_cmd 3 op) \/ ~ remapping op).
  { unfold remapping, is_cc, is_sysex_cmd, own_sysex in *. destruct op as [| |c k v| | |data| | |]; try (right; intros [(?&?&?)|[(?&?&?)|[(?&?)|(?&?)]]]; discriminate).
    - destruct (Z.eq_dec k 84) as [->|]; [left; left; exists c, v; reflexivity|].
      destruct (Z.eq_dec k 121) as [->|]; [left; right; left; exists c, v; reflexivity|].
      right; intros [(?&?&?)|[(?&?&?)|[(?&?)|(?&?)]]]; congruence.
    - destruct (has_prefix [0;0x22;0x77;3] data) eqn:Ep.
      + apply has_prefix_app in Ep as [t ->]. left; right; right. exists t. reflexivity.
      + right; intros [(?&?&H)|[(?&?&H)|[H|(t & H)]]]; [discriminate|discriminate|contradiction|].
        injection H as ->. discriminate. }
  destruct Hdec as [Hr|Hr].
  - destruct (remap_to_nine op s s' o Hs Hop E Hr) as [H | ->]; [|exact Hn].
    unfold percussion_notes. etransitivity; [|apply Nat.le_succ_diag_r]. apply (filter_one _ _ 9). intros i d Hd Hp.
    apply andb_prop in Hp as [Hp _]. apply (H i d Hd). lia.
  - assert (Koff : forall c p, is_chan c -> midi_note_off c p s = WDone s' o -> (percussion_notes s' <= percussion_notes s)%nat).
    { intros c p Hc E1. destruct (ok_ch_get _ _ Hs Hc) as (m & Hm & _).
      destruct (note_off_effect _ _ _ _ _ m Hs Hc Hm E1) as (Ed & _). unfold percussion_notes. apply filter_le.
      intros i d' Hd'. rewrite Ed in Hd'. apply dev_map in Hd' as (d & Hd & ->). exists d. split; [exact Hd|].
      unfold note_off_dev. destruct (serves_note c p d) eqn:Es; [|auto].
      unfold serves_note, isChannelPlayingNote in Es. apply andb_prop in Es as [_ Es]. apply andb_prop in Es as [-> _].
      destruct (falls_back s m c p); [unfold retrig_dev; destruct (m_porta m)|]; cbn; rewrite ?andb_true_r; try congruence.
      - intros H; apply andb_prop in H; tauto.
      - rewrite andb_false_r. discriminate. }
    destruct (match op with MNoteOn _ _ _ | MNoteOff _ _ => true | _ => false end) eqn:Eop.
    + destruct op; try discriminate; unfold steps in E; cbn [midi_step mop_ok] in *.
      2: etransitivity; [apply (Koff c p); tauto|exact Hn].
      destruct (Z.eqb_spec v 0) as [->|Hv]; [etransitivity; [apply (Koff c p); tauto|exact Hn]|].
      destruct Hop as (Hc & Hp & _). destruct (ok_ch_get _ _ Hs Hc) as (m & Hm & _).
      destruct (midi_note_on_eq c p v s m Hs Hc Hp Hv Hm) as (s1 & o1 & E2 & R). rewrite E in E2. injection E2 as <- <-.
      assert (K : forall i d d', dev_at s i d -> tooManyPercussiveNotes s c = false -> d_midi d' = c ->
        (length (filter perc (zset (md_dev s) i d')) <= 2)%nat).
      { intros i d d' Hd Ht Hm'. destruct (Z.eq_dec c 9) as [->|Hc9].
        - rewrite too_many_count in Ht. apply Nat.leb_gt in Ht. unfold percussion_notes in Ht. fold perc in Ht.
          pose proof (filter_zset perc (md_dev s) i d'). lia.
        - etransitivity; [|exact Hn]. unfold percussion_notes. fold perc. apply filter_le. intros j x Hx'.
          destruct (Z.eq_dec j i) as [->|Hj].
          + rewrite zget_zset_same in Hx' by (eapply zget_Some; exact Hd). injection Hx' as <-. exists d. split; [exact Hd|].
            unfold perc. rewrite Hm'. replace (c =? 9) with false by lia. discriminate.
          + rewrite zget_zset_other in Hx' by congruence. eauto. }
      destruct R as [|i d st Ht Ci Hd _ _ _ Hpo _|i d st Ht Ci Hd _ _ Ek _|i d Ht Ci Hd _]; [exact Hn| | |];
        unfold percussion_notes; fold perc; cbn [md_dev md_set_dev md_set_ch].
      * etransitivity; [|exact Hn]. unfold percussion_notes. fold perc. apply filter_le. intros j x Hx'.
        destruct (Z.eq_dec j i) as [->|Hj].
        -- rewrite zget_zset_same in Hx' by (eapply zget_Some; exact Hd). injection Hx' as <-. exists d. split; [exact Hd|auto].
        -- rewrite zget_zset_other in Hx' by congruence. eauto.
      * apply (K i d); [exact Hd|exact Ht|apply started_note].
      * apply (K i d); [exact Hd|exact Ht|apply started_note].
    + destruct (other_step op s s' o Hs Hop ltac:(destruct op; discriminate || exact I) E) as [FD _].
      etransitivity; [|exact Hn]. unfold percussion_notes. fold perc. apply filter_le. intros i d' Hd'.
      destruct (FD i d' Hd') as (d & Hd & F). exists d. split; [exact Hd|]. apply (fate_perc op s); assumption.
Qed.
Lemma percussion_limit ops s o : Forall (fun op => ~ is_sysex_cmd 0 op) ops -> boots_to ops s o -> (percussion_notes s <= 2)%nat.
Proof.
  intros HP Hb.
  apply (boot_induction (fun (_ : unit) _ => tt) tt (fun op => ~ is_sysex_cmd 0 op) (fun _ s => (percussion_notes s <= 2)%nat))
    with (ops := ops) (o := o); [| |exact HP|exact Hb].
  - unfold percussion_notes. etransitivity; [|apply Nat.le_succ_diag_r]. apply (filter_one _ _ 9). intros i d Hd Hp.
    destruct (booted_dev i d Hd) as (H1 & _). rewrite H1, andb_false_r in Hp. discriminate.
  - intros op h s0 s' o' H1 H2 H3 H4 H5 H6. apply (perc_step op h s0 s' o'); assumption.
Qed.
