(** FM channels carry the settings of their device channels. *)
From Verif Require Import Base BaseLemmas PitchModel SynthModel SynthSpec SynthViewProofs MidiModel MidiSpec MidiOkProofs MidiEqProofs MidiEffectProofs MidiCallProofs.
From Verif Require Import MidiProofs MidiDevProofs MidiInvProofs.
From Verif Require Import PsgModel DevModel DevSpec DevProofs AppModel AppSpec AppProofs AppTraceProofs AppClaimsProofs AppViewProofs AppKeyProofs SoundSpec.
From Verif Require MidiNoteProofs MidiChanProofs.

(** Mapping mode stays automatic without re-assignment. *)
Lemma pref_step op s s' o : ~ remapping op -> mop_ok op -> midi_ok s -> steps s op s' o -> md_pref s = 2 -> md_pref s' = 2.
Proof.
  intros Hr Hop Hs E P. unfold steps in E.
  assert (Koff : forall c p, is_chan c -> midi_note_off c p s = WDone s' o -> md_pref s' = 2).
  { intros c p Hc E1. destruct (ok_ch_get _ _ Hs Hc) as (m & Hm & _).
    destruct (MidiNoteProofs.note_off_effect _ _ _ _ _ m Hs Hc Hm E1) as (_ & _ & st & _ & _ & ->). exact P. }
  destruct op as [c p v|c p|c k v|c p|c b|data| | |cb]; cbn [midi_step mop_ok] in *.
  - destruct Hop as (Hc & Hp & _). destruct (Z.eqb_spec v 0) as [->|Hv]; [apply (Koff c p); auto|].
    destruct (ok_ch_get _ _ Hs Hc) as (m & Hm & _).
    destruct (midi_note_on_eq c p v s m Hs Hc Hp Hv Hm) as (s1 & o1 & E2 & R). rewrite E in E2. injection E2 as <- <-.
    destruct R; exact P.
  - destruct Hop. apply (Koff c p); assumption.
  - destruct Hop as (Hc & Hk & Hv). destruct (ok_ch_get _ _ Hs Hc) as (m & Hm & _).
    destruct (midi_cc_result _ _ _ _ m _ _ Hs Hc Hv Hm E) as (o' & R & _). clear E.
    destruct R as [m' Hf|Hk'|Hk'|Hk'|s1 Hk' E|Hk'|s1 o1 Hk' E|Hk' _|Hk' _|_|o1 Hk' _|_|devs o1 Hk' HH]; try exact P.
    + exfalso. apply Hr. left. subst k. eexists; eexists; reflexivity.
    + exfalso. apply Hr. right; left. subst k. eexists; eexists; reflexivity.
  - destruct Hop as (Hc & _). destruct (ok_ch_get _ _ Hs Hc) as (m & Hm & _).
    rewrite (midi_program_eq _ _ _ m Hm) in E. injection E as <- <-. exact P.
  - destruct Hop as (Hc & _). destruct (ok_ch_get _ _ Hs Hc) as (m & Hm & _).
    rewrite (midi_pitch_bend_eq _ _ _ m Hm) in E. injection E as <- <-. exact P.
  - apply midi_sysex_result in E. destruct E as [|t s1 o1 Ed E|a b s1 Ed E|a Ed|a Ed|a Ed|a Ed|o1 _]; try exact P.
    + destruct (gm_reset_eq s Hs) as (devs & o2 & o3 & E' & _). rewrite E' in E. injection E as <- <-. exact P.
    + exfalso. apply Hr. right; right; left. exists [a; b]. unfold own_sysex. rewrite Ed. reflexivity.
    + exfalso. apply Hr. right; right; right. exists [a]. unfold own_sysex. rewrite Ed. reflexivity.
  - unfold reset in E. do 3 apply emit_inv in E as (? & E & ->). cbv zeta in E.
    rewrite reset_channels_eq in E by apply Hs. injection E as <- <-. reflexivity.
  - rewrite (midi_tick_eq _ Hs) in E. injection E as <- <-. exact P.
  - injection E as <- <-. exact P.
Qed.

Lemma pan_side_mod x : pan_side x mod 4 = pan_side x.
Proof. unfold pan_side. repeat match goal with |- context [if ?b then _ else _] => destruct b end; reflexivity. Qed.

Section Sound.
Context (r : rom) (n : Z) (Hn : 0 <= n < 6) (side drums : bool).
Notation view := (fold_left (cv_step r n)).

Definition cv_side (w : cview) : Z := v_side (cv_sv w).
Definition cv_pre (w : cview) : preset := v_pre (cv_sv w).

(** Calls that leave volume, side and instrument to the device channel's own calls. *)
Definition meek (c : dcall) : Prop :=
  match c with
  | DSynth op => match op with
                 | SInit _ | SPreset _ _ | SVolume _ _ => False
                 | SStereo _ _ => side = false
                 | _ => True
                 end
  | DFmReset => False
  | _ => True
  end.
Lemma meek_plain c w : meek c -> plain_call c ->
  let w' := cv_step r n w c in
  cv_vol w' = cv_vol w /\ (side = true -> cv_side w' = cv_side w) /\ cv_perc w' = cv_perc w /\ cv_pre w' = cv_pre w.
Proof.
  intros M [P1 P2]. unfold cv_side, cv_pre. cbv zeta.
  destruct c as [v q x ce vel|v q x|v q x|v q x|v q|v q x|v q x ce|q b|o|e|prog q|prog|q prog|prog|mc q|data| | | | | |k mc key v|mc b];
    try discriminate P1; try contradiction M; try (split; [reflexivity|]; split; [reflexivity|split; reflexivity]).
  - exfalso. eapply P2; reflexivity.
  - cbn [cv_step cv_vol cv_perc cv_sv cv_sops fold_left]. split; [reflexivity|]. cbn [meek] in M.
    destruct o; try contradiction M; cbn [sv_step param_of]; try (destruct (_ =? n)); cbn [v_side v_pre];
      (split; [intros Hs; try congruence; reflexivity|split; reflexivity]).
Qed.

(** Messages after which the invariant holds with phase [k] if it did before
    (resets aside). *)
Definition sound_msg (k : Z) (m : mop) : Prop :=
  ~ remapping m /\ ~ is_cc 78 m /\ (side = true -> ~ is_cc 77 m) /\ (drums = true -> forall p v, m = MNoteOn 9 p v -> v <> 0 -> k = 2).
Lemma menu_meek k m c : sound_msg k m -> m <> MReset -> menu m c -> meek c.
Proof.
  intros (_ & _ & S & _) N M.
  assert (V : forall c, voice_call c -> meek c) by (intros x; destruct x; cbn; tauto).
  destruct m as [? ? ?|? ?|ch key v|? ?|? ?|data| | |b]; cbn [menu] in M; try contradiction; try (apply V; exact M).
  - destruct M as [M|[(t & a & b & d' & ->)|[(a & b & ->)|[(_ & q & z & ->)|[(o & -> & So & a & x & F)|[(_ & b & ->)|(_ & b & ->)]]]]]]; try exact I; [apply V; exact M|].
    destruct o; try exact I; try contradiction So. cbn [meek]. destruct side; [|reflexivity]. exfalso. apply (S eq_refl).
    assert (key = 77); [|subst; eexists; eexists; reflexivity].
    unfold fm_controls in F. cbv zeta in F.
    repeat match type of F with context [if ?b then _ else _] => let E := fresh in destruct b eqn:E; try discriminate F end. lia.
  - destruct M as [M|(t & a & b & d' & ->)]; [apply V; exact M|exact I].
  - destruct M as [[_ M]|[(_ & l & ->)|[(_ & l & ->)|[(_ & a & b & d & ->)|[(K & q & z & ->)|[(_ & q & ->)|[(_ & q & ->)|(_ & a & q & ->)]]]]]]]; try exact I. apply V; exact M.
Qed.

Definition fits (k : Z) (j : Z) (d : dev) : Prop :=
  shape_ok j d /\ no_dac d /\ (d_on d = true -> is_chan (d_midi d)) /\
  (drums = true -> 6 <= j -> k <> 0 -> d_midi d <> 9) /\ (drums = true -> j < 6 -> k <> 2 -> d_midi d <> 9).
Definition carried (w : cview) (d : dev) : Prop :=
  cv_vol w = d_vol d /\ (side = true -> cv_side w = pan_side (d_pan d)) /\
  (drums = true -> d_on d = true -> cv_perc w = true -> d_midi d = 9) /\
  (drums = true -> cv_pre w = rom_preset r (d_prog d) \/ d_midi d = 9).
Definition sinv (k : Z) (l : list dev) (w : cview) : Prop :=
  length l = 13%nat /\ (forall j d, zget l j = Some d -> fits k j d) /\ (forall d, zget l n = Some d -> carried w d).

Lemma press_perc c x d b q : In (DPerc q b) (press_calls c x d) -> q = d_num d /\ b = (c =? 9).
Proof.
  unfold press_calls. intros H. apply in_app_or in H as [H|[H|[]]].
  - destruct (back c d); [destruct H as [[=]|[]]|destruct H].
  - injection H as -> ->. auto.
Qed.

Lemma sinv_atom op k l w j d cs d' : sound_msg k op -> mop_ok op -> op <> MReset -> ~ gm_reset_msg op ->
  sinv k l w -> zget l j = Some d -> datom (Some op) j d cs d' -> sinv k (zset l j d') (view cs w).
Proof.
  intros (K1 & K2 & K3 & K4) Ho N1 N2 (L & S & H) Hj A.
  assert (R := zget_Some _ _ _ Hj). rewrite L in R. change (Z.of_nat 13) with 13 in R.
  destruct (S j d Hj) as (S1 & S2 & S3 & S4 & S5).
  assert (NI : ~ may_init (Some op) d).
  { intros [[=]|[B|[[=]|[B _]]]]; [|auto|apply because_some in B; auto].
    apply K1. right; left. apply because_some in B. exact B. }
  assert (NA : ~ (d_on d = false /\ may_assign (Some op) \/ because remapping (Some op))).
  { intros [[_ [[=]|[[=]|B]]]|B]; [auto|apply because_some in B; auto..]. }
  assert (ND : ~ because (is_cc 78) (Some op)) by (intros B; apply because_some in B; auto).
  assert (HI : drums = true -> 6 <= j -> forall c p v, op = MNoteOn c p v -> v <> 0 -> (c = 9 -> d_ops d = VPsg -> d_midi d = 9) -> (10 <= j -> d_midi d = c) -> c <> 9).
  { intros T J6 c p v E Hv P1 P2 Ec. subst c. assert (Hk : k = 2) by (eapply K4; [exact T|exact E|exact Hv]). subst k.
    apply (S4 T J6 ltac:(discriminate)). destruct (Z_lt_le_dec j 10); [|auto]. apply P1; [reflexivity|].
    apply S1. lia. }
  split; [rewrite zset_length; exact L|]. split.
  - intros i x Hx. destruct (Z.eq_dec i j) as [->|Nk]; [|rewrite zget_zset_other in Hx by auto; exact (S i x Hx)].
    rewrite zget_zset_same in Hx by (rewrite L; exact R). injection Hx as <-.
    split; [exact (atom_shape _ _ _ _ _ R A S1)|]. split; [exact (atom_no_dac _ _ _ _ _ ND A S2)|].
    destruct A; try contradiction; try (split; [exact S3|split; [exact S4|exact S5]]); try (split; [discriminate|split; [exact S4|exact S5]]).
    assert (M : d_midi (pressed c p x d) = c) by (unfold pressed; destruct (back c d); reflexivity).
    injection H0 as ->. rewrite M. split; [intros _; apply Ho|]. split.
    + intros T J6 _. eapply HI; eauto.
    + intros T _ Hk ->. apply Hk. eapply K4; [exact T|reflexivity|exact H1].
  - intros x Hx. destruct (Z.eq_dec n j) as [<-|Nj].
    + rewrite zget_zset_same in Hx by (rewrite L; exact R). injection Hx as <-. destruct (H d Hj) as (C1 & C2 & C3 & C4).
      assert (Nn : d_num d = n) by (apply S1; lia).
      assert (Of : d_ops d = VFm) by (destruct S1 as [S1 _]; destruct (S1 ltac:(lia)) as [_ [Oo|[_ Oo]]]; [exact Oo|contradiction]).
      unfold carried, cv_side, cv_pre in *.
      destruct A; try contradiction; unfold press_calls; rewrite ?Of, ?Nn; cbn [fold_left];
        try (cbn [cv_step cv_sops fold_left sv_step]; rewrite ?Z.eqb_refl; cbn [cv_vol cv_vel cv_perc cv_sv v_side v_pre]; split; [exact C1|split; [exact C2|split; [exact C3|exact C4]]]).
      * cbn [cv_step cv_sops fold_left sv_step]; rewrite ?Z.eqb_refl. split; [reflexivity|split; [exact C2|split; [exact C3|exact C4]]].
      * cbn [cv_step cv_sops fold_left sv_step]; rewrite ?Z.eqb_refl. split; [exact C1|split; [|split; [exact C3|exact C4]]].
        intros _. apply pan_side_mod.
      * cbn [cv_step cv_sops fold_left sv_step]; rewrite ?Z.eqb_refl, ?andb_true_r. split; [exact C1|].
        split; [|split; [exact C3|intros _; left]]; destruct (cv_user w); try exact C2; reflexivity.
      * assert (M : d_midi (pressed c p x d) = c) by (unfold pressed; destruct (back c d); reflexivity). rewrite M.
        rewrite fold_left_app. cbn [fold_left]. unfold pressed, back.
        destruct ((d_midi d =? 9) && negb (c =? 9)) eqn:B; cbn [fold_left cv_step cv_sops sv_step]; rewrite ?Z.eqb_refl, ?andb_true_r.
        -- split; [exact C1|]. split; [destruct (cv_user w); exact C2|]. split; [cbn; intros _ _; lia|]. intros _. left. destruct (cv_user w); reflexivity.
        -- split; [exact C1|]. split; [exact C2|]. split; [cbn; intros _ _; lia|].
           intros T. destruct (C4 T) as [C4'|C4']; [left; exact C4'|]. right. lia.
      * cbn [cv_step cv_sops]. rewrite Z.eqb_refl. cbn [andb]. destruct (playable p); [|split; [exact C1|split; [exact C2|split; [exact C3|exact C4]]]].
        destruct (cv_perc w) eqn:Pe; cbn [fold_left sv_step Datatypes.app]; rewrite ?Z.eqb_refl; cbn [fold_left cv_vol cv_perc cv_sv sv_step v_side v_pre]; rewrite ?Z.eqb_refl; cbn [v_side v_pre];
          (split; [exact C1|]; split; [exact C2|]; split; [exact C3|]); [intros T; right; auto|exact C4].
      * cbn [cv_step cv_sops]. rewrite Z.eqb_refl. cbn [andb]. destruct (playable p); [|split; [exact C1|split; [exact C2|split; [exact C3|exact C4]]]].
        destruct (cv_perc w) eqn:Pe; cbn [fold_left sv_step Datatypes.app]; rewrite ?Z.eqb_refl; cbn [fold_left cv_vol cv_perc cv_sv sv_step v_side v_pre]; rewrite ?Z.eqb_refl; cbn [v_side v_pre];
          (split; [exact C1|]; split; [exact C2|]; split; [exact C3|]); [intros T; right; auto|exact C4].
      * cbn [cv_step cv_sops fold_left sv_step]; rewrite ?Z.eqb_refl. split; [exact C1|split; [exact C2|split; [discriminate|exact C4]]].
      * cbn [cv_step cv_sops fold_left sv_step]; rewrite ?Z.eqb_refl. split; [exact C1|split; [exact C2|split; [discriminate|exact C4]]].
    + rewrite zget_zset_other in Hx by (intros E; apply Nj; auto). destruct (H x Hx) as (C1 & C2 & C3 & C4).
      destruct (others_move r n (Some op) j d cs d' w R ltac:(auto) S1 S2 A) as [E|(b & I1 & E)]; rewrite E; [split; [exact C1|split; [exact C2|split; [exact C3|exact C4]]]|].
      split; [exact C1|]. split; [exact C2|]. split; [|exact C4]. cbn [cv_perc]. intros T Hon ->. exfalso.
      destruct A; try contradiction; try (destruct I1 as [I1|[]]; discriminate I1).
      apply press_perc in I1 as [I1 I2]. injection H0 as ->. destruct (Z_lt_le_dec j 6) as [J|J].
      * destruct S1 as [S1 _]. destruct (S1 J). lia.
      * apply (HI T J c p v eq_refl H1 H3 H4). lia.
Qed.

Lemma sinv_plain k l w c : meek c -> plain_call c -> sinv k l w -> sinv k l (cv_step r n w c).
Proof.
  intros M P (L & S & H). split; [exact L|]. split; [exact S|]. intros d Hd. destruct (H d Hd) as (C1 & C2 & C3 & C4).
  destruct (meek_plain c w M P) as (E1 & E2 & E3 & E4). unfold carried. rewrite E1, E3, E4.
  split; [exact C1|]. split; [intros Hs; rewrite E2 by exact Hs; auto|]. auto.
Qed.

Lemma no_off m : ~ off_msg m -> ~ because off_msg (Some m).
Proof. intros H B. apply because_some in B. auto. Qed.

(** General MIDI reset: the second half, with every device channel silent. *)
Definition ginv (l : list dev) (w : cview) : Prop :=
  length l = 13%nat /\ (forall j d, zget l j = Some d -> shape_ok j d /\ no_dac d /\ d_on d = false) /\
  (forall d, zget l n = Some d -> cv_vol w = d_vol d /\ (side = true -> cv_side w = pan_side (d_pan d)) /\ (drums = true -> cv_pre w = rom_preset r (d_prog d))).
Lemma gm_plain op : gm_reset_msg op -> ~ because off_msg (Some op) /\ (forall c p v, op <> MNoteOn c p v) /\ ~ because (is_cc 78) (Some op).
Proof.
  intros (t & ->). split; [apply no_off; intros [(c & p & [=])|(c & p & [=])]|]. split; [discriminate|].
  intros B. apply because_some in B as (c & v & [=]).
Qed.
Lemma ginv_atom op l w j d cs d' : gm_reset_msg op -> ginv l w -> zget l j = Some d -> datom (Some op) j d cs d' -> ginv (zset l j d') (view cs w).
Proof.
  intros G (L & S & H) Hj A. destruct (gm_plain op G) as (NO & NN & ND).
  assert (R := zget_Some _ _ _ Hj). rewrite L in R. change (Z.of_nat 13) with 13 in R.
  destruct (S j d Hj) as (S1 & S2 & S3).
  split; [rewrite zset_length; exact L|]. split.
  - intros i x Hx. destruct (Z.eq_dec i j) as [->|Nk]; [|rewrite zget_zset_other in Hx by auto; exact (S i x Hx)].
    rewrite zget_zset_same in Hx by (rewrite L; exact R). injection Hx as <-.
    split; [exact (atom_shape _ _ _ _ _ R A S1)|]. split; [exact (atom_no_dac _ _ _ _ _ ND A S2)|].
    destruct A; try contradiction; try exact S3; try reflexivity. exfalso. injection H0 as H0. exact (NN _ _ _ H0).
  - intros x Hx. destruct (Z.eq_dec n j) as [<-|Nj].
    + rewrite zget_zset_same in Hx by (rewrite L; exact R). injection Hx as <-. destruct (H d Hj) as (C1 & C2 & C3).
      assert (Nn : d_num d = n) by (apply S1; lia).
      assert (Of : d_ops d = VFm) by (destruct S1 as [S1 _]; destruct (S1 ltac:(lia)) as [_ [Oo|[_ Oo]]]; [exact Oo|contradiction]).
      unfold cv_side, cv_pre in *.
      destruct A; try contradiction; rewrite ?Of, ?Nn; cbn [fold_left];
        try (cbn [cv_step cv_sops fold_left sv_step]; rewrite ?Z.eqb_refl; cbn [cv_vol cv_vel cv_perc cv_sv v_side v_pre]; split; [exact C1|split; [exact C2|exact C3]]).
      * cbn [cv_step cv_sops fold_left sv_step]; rewrite ?Z.eqb_refl. split; [reflexivity|split; [exact C2|exact C3]].
      * cbn [cv_step cv_sops fold_left sv_step]; rewrite ?Z.eqb_refl. split; [exact C1|split; [|exact C3]].
        intros _. apply pan_side_mod.
      * cbn [cv_step cv_sops fold_left sv_step]; rewrite ?Z.eqb_refl, ?andb_true_r. split; [exact C1|].
        split; [|intros _]; destruct (cv_user w); try exact C2; reflexivity.
      * exfalso. injection H0 as H0. exact (NN _ _ _ H0).
      * exfalso. congruence.
      * cbn [cv_step]. destruct (_ =? n); cbn [cv_vol cv_sv]; (split; [exact C1|split; [exact C2|exact C3]]).
    + rewrite zget_zset_other in Hx by (intros E; apply Nj; auto). destruct (H x Hx) as (C1 & C2 & C3).
      destruct (others_move r n (Some op) j d cs d' w R ltac:(auto) S1 S2 A) as [E|(b & I1 & E)]; rewrite E; split; try exact C1; split; assumption.
Qed.
Lemma ginv_plain l w c : meek c -> plain_call c -> ginv l w -> ginv l (cv_step r n w c).
Proof.
  intros M P (L & S & H). split; [exact L|]. split; [exact S|]. intros d Hd. destruct (H d Hd) as (C1 & C2 & C3).
  destruct (meek_plain c w M P) as (E1 & E2 & E3 & E4). rewrite E1, E4.
  split; [exact C1|]. split; [intros Hs; rewrite E2 by exact Hs; auto|]. exact C3.
Qed.

Lemma tick_msg k : sound_msg k MTick.
Proof.
  split; [intros [(c & v & [=])|[(c & v & [=])|[(l & [=])|(l & [=])]]]|]. split; [intros (c & v & [=])|]. split; [intros _ (c & v & [=])|intros _; discriminate].
Qed.
Lemma gm_not_reset op : gm_reset_msg op -> op <> MReset.
Proof. intros (t & ->). discriminate. Qed.
Lemma sinv_gm k op s s' o w : gm_reset_msg op -> sound_msg k op -> mop_ok op -> midi_ok s -> steps s op s' o -> md_pref s = 2 -> (drums = true -> k <> 2) ->
  sinv k (md_dev s) w -> sinv 1 (md_dev s') (view o w).
Proof.
  intros G M Ho Hs E P K H.
  assert (Q : Forall meek o).
  { apply Forall_forall. intros c Hc. apply (menu_meek k op); [exact M|apply gm_not_reset, G|].
    exact (proj1 (Forall_forall _ _) (step_menu _ _ _ _ E) c Hc). }
  destruct (step_ok _ _ _ _ Hs Ho E) as [Hs' _].
  destruct (gm_moves op s s' o Hs G E) as (devs & o1 & o2 & -> & M1 & M2 & Off & P' & D' & F).
  apply Forall_app in Q as [Q1 Q2]. rewrite fold_left_app.
  assert (H1 : sinv k devs (view o1 w)).
  { refine (moves_inv (cv_step r n) (Some MTick) meek (sinv k) _ _ _ _ _ M1 Q1 w H).
    - intros l t j d cs d' Hi Hj A _. eapply (sinv_atom MTick); [apply tick_msg|exact I|discriminate|intros (x & [=])|exact Hi|exact Hj|exact A].
    - intros l t c Pc Mc Hi. apply sinv_plain; assumption. }
  assert (H2 : ginv devs (view o1 w)).
  { destruct H1 as (L & S & C). split; [exact L|]. split.
    - intros j d Hd. destruct (S j d Hd) as (S1 & S2 & S3 & _). split; [exact S1|]. split; [exact S2|].
      destruct (d_on d) eqn:On; [|reflexivity]. exfalso. destruct (Off j d Hd) as [X|X]; [congruence|]. apply X, S3, eq_refl.
    - intros d Hd. destruct (C d Hd) as (C1 & C2 & _ & C4). destruct (S n d Hd) as (_ & _ & _ & _ & S5).
      split; [exact C1|]. split; [exact C2|]. intros T. destruct (C4 T) as [C4'|C4']; [exact C4'|]. exfalso. apply S5; [exact T|lia|exact (K T)|exact C4']. }
  assert (H3 : ginv (md_dev s') (view o2 (view o1 w))).
  { refine (moves_inv (cv_step r n) (Some op) meek ginv _ _ _ _ _ M2 Q2 _ H2).
    - intros l t j d cs d' Hi Hj A _. eapply ginv_atom; eassumption.
    - intros l t c Pc Mc Hi. apply ginv_plain; assumption. }
  destruct H3 as (L & S & C). rewrite P in D'. cbn in D'. rewrite D' in F.
  assert (U : forall j d, zget (md_dev s') j = Some d -> d_midi d = 127).
  { intros j d Hd. destruct (F j d Hd) as (d0 & _ & ->). reflexivity. }
  split; [exact L|]. split.
  - intros j d Hd. destruct (S j d Hd) as (S1 & S2 & S3). unfold fits. rewrite (U j d Hd).
    split; [exact S1|]. split; [exact S2|]. split; [congruence|]. split; intros _; discriminate.
  - intros d Hd. destruct (C d Hd) as (C1 & C2 & C3). destruct (S n d Hd) as (_ & _ & S3).
    split; [exact C1|]. split; [exact C2|]. split; [congruence|]. intros T. left; exact (C3 T).
Qed.

(** System Reset. *)
Definition rinv (l : list dev) (w : cview) : Prop :=
  length l = 13%nat /\ (forall j d, zget l j = Some d -> shape_ok j d /\ no_dac d) /\
  (forall d, zget l n = Some d -> (cv_vol w = d_vol d \/ cv_vol w = 127) /\ (cv_side w = pan_side (d_pan d) \/ cv_side w = 3) /\
     (cv_pre w = rom_preset r (d_prog d) \/ cv_pre w = rom_preset r 0)).
Lemma rinv_atom l w j d cs d' : rinv l w -> zget l j = Some d -> datom (Some MReset) j d cs d' -> rinv (zset l j d') (view cs w).
Proof.
  intros (L & S & H) Hj A.
  assert (NO : ~ because off_msg (Some MReset)) by (apply no_off; intros [(c & p & [=])|(c & p & [=])]).
  assert (ND := no_cc_reset).
  assert (R := zget_Some _ _ _ Hj). rewrite L in R. change (Z.of_nat 13) with 13 in R.
  destruct (S j d Hj) as (S1 & S2).
  split; [rewrite zset_length; exact L|]. split.
  - intros i x Hx. destruct (Z.eq_dec i j) as [->|Nk]; [|rewrite zget_zset_other in Hx by auto; exact (S i x Hx)].
    rewrite zget_zset_same in Hx by (rewrite L; exact R). injection Hx as <-.
    split; [exact (atom_shape _ _ _ _ _ R A S1)|exact (atom_no_dac _ _ _ _ _ ND A S2)].
  - intros x Hx. destruct (Z.eq_dec n j) as [<-|Nj].
    + rewrite zget_zset_same in Hx by (rewrite L; exact R). injection Hx as <-. destruct (H d Hj) as (C1 & C2 & C3).
      assert (Nn : d_num d = n) by (apply S1; lia).
      assert (Of : d_ops d = VFm) by (destruct S1 as [S1 _]; destruct (S1 ltac:(lia)) as [_ [Oo|[_ Oo]]]; [exact Oo|contradiction]).
      unfold cv_side, cv_pre in *.
      destruct A; try contradiction; try discriminate; rewrite ?Of, ?Nn; cbn [fold_left];
        try (cbn [cv_step cv_sops fold_left sv_step]; rewrite ?Z.eqb_refl; cbn [cv_vol cv_vel cv_perc cv_sv v_side v_pre]; split; [exact C1|split; [exact C2|exact C3]]).
      * cbn [cv_step cv_sops fold_left sv_step]; rewrite ?Z.eqb_refl. split; [left; reflexivity|split; [exact C2|exact C3]].
      * cbn [cv_step cv_sops fold_left sv_step]; rewrite ?Z.eqb_refl. split; [exact C1|split; [|exact C3]].
        left. apply pan_side_mod.
      * cbn [cv_step cv_sops fold_left sv_step]; rewrite ?Z.eqb_refl, ?andb_true_r. split; [exact C1|].
        split; destruct (cv_user w); try exact C2; left; reflexivity.
      * destruct H0 as (k & [=] & _).
      * cbn [cv_step]. destruct (_ =? n); cbn [cv_vol cv_sv]; (split; [exact C1|split; [exact C2|exact C3]]).
    + rewrite zget_zset_other in Hx by (intros E; apply Nj; auto). destruct (H x Hx) as (C1 & C2 & C3).
      destruct (others_move r n (Some MReset) j d cs d' w R ltac:(auto) S1 S2 A) as [E|(b & I1 & E)]; rewrite E; split; try exact C1; split; assumption.
Qed.
Lemma rinv_plain l w c : menu MReset c -> plain_call c -> rinv l w -> rinv l (cv_step r n w c).
Proof.
  intros M [P1 P2] (L & S & H). split; [exact L|]. split; [exact S|]. intros d Hd. destruct (H d Hd) as (C1 & C2 & C3).
  cbn [menu] in M. destruct M as [M|[->|[->| ->]]].
  - exfalso. destruct c; try contradiction M; try discriminate P1. eapply P2; reflexivity.
  - split; [exact C1|]. split; assumption.
  - split; [right; reflexivity|]. split; right; reflexivity.
  - split; [exact C1|]. split; assumption.
Qed.
Lemma sinv_reset k s s' o w : midi_ok s -> steps s MReset s' o -> sinv k (md_dev s) w -> sinv 0 (md_dev s') (view o w).
Proof.
  intros Hs E (L & S & _). assert (Q := step_menu _ _ _ _ E).
  destruct (reset_moves s s' o Hs E) as (o' & -> & M). do 3 apply Forall_inv_tail in Q.
  destruct (reset_devs s s' _ Hs E) as (_ & _ & D).
  assert (H : rinv (md_dev s') (view o' (view [DPsgReset; DFmReset; DSmReset] w))).
  { refine (moves_inv (cv_step r n) (Some MReset) (menu MReset) rinv _ _ _ _ _ M Q _ _).
    - intros l t j d cs d' Hi Hj A _. eapply rinv_atom; eassumption.
    - intros l t c Pc Mc Hi. apply rinv_plain; assumption.
    - split; [exact L|]. split; [intros j d Hd; destruct (S j d Hd) as (S1 & S2 & _); auto|].
      intros d Hd. split; [right; reflexivity|]. split; right; reflexivity. }
  change (view (DPsgReset :: DFmReset :: DSmReset :: o') w) with (view o' (view [DPsgReset; DFmReset; DSmReset] w)).
  destruct H as (L' & S' & C). split; [exact L'|]. split.
  - intros j d Hd. destruct (S' j d Hd) as (S1 & S2). destruct (D j d Hd) as (d0 & _ & ->).
    destruct (reset_dev_facts j d0) as (F1 & _ & _ & _ & _ & _ & F7). unfold fits. rewrite F1, F7.
    split; [exact S1|]. split; [exact S2|]. split; [discriminate|]. split; lia.
  - intros d Hd. destruct (C d Hd) as (C1 & C2 & C3). destruct (D n d Hd) as (d0 & _ & ->).
    destruct (reset_dev_facts n d0) as (F1 & _ & F3 & F4 & F5 & _ & F7). unfold carried. rewrite F1, F3, F4, F5, F7 in *.
    change (pan_side 64) with 3 in *. split; [destruct C1; assumption|]. split; [intros _; destruct C2; assumption|]. split; [discriminate|].
    intros _. left. destruct C3; assumption.
Qed.

Definition sound_op (m : mop) : Prop := ~ remapping m /\ ~ is_cc 78 m /\ (side = true -> ~ is_cc 77 m).
Lemma gm_data data : is_gm_reset data = true -> gm_reset_msg (MSysex data).
Proof.
  intros H. destruct data as [|a [|b [|c [|d t]]]]; try discriminate H. exists t. cbn in H.
  apply andb_prop in H as [H H4]. apply andb_prop in H as [H H3]. apply andb_prop in H as [H1 H2].
  apply Z.eqb_eq in H1, H2, H3, H4. subst. reflexivity.
Qed.

Lemma sinv_free k k' l w : (drums = true -> k' = k) -> sinv k l w -> sinv k' l w.
Proof.
  intros K (L & S & C). split; [exact L|]. split; [|exact C]. intros j d Hd. destruct (S j d Hd) as (S1 & S2 & S3 & S4 & S5).
  split; [exact S1|]. split; [exact S2|]. split; [exact S3|]. split; intros T; rewrite (K T); auto.
Qed.
Lemma sinv_step k k' op s s' o w : sound_op op -> (drums = true -> drum_phase (Some k) op = Some k') -> mop_ok op -> midi_ok s -> steps s op s' o -> md_pref s = 2 ->
  sinv k (md_dev s) w -> sinv k' (md_dev s') (view o w).
Proof.
  intros (O1 & O2 & O3) D Ho Hs E P H. destruct (reset_dec op) as [->|N].
  { apply (sinv_free 0); [intros T; specialize (D T); injection D as <-; reflexivity|eapply sinv_reset; eassumption]. }
  assert (X : gm_reset_msg op /\ (drums = true -> k <> 2 /\ k' = 1) \/ ~ gm_reset_msg op).
  { destruct op; try (right; intros (t & [=]); fail). cbn [drum_phase] in D. destruct (is_gm_reset data) eqn:G.
    - left. split; [apply gm_data, G|]. intros T. specialize (D T). destruct (Z.eqb_spec k 2); [discriminate|]. injection D as <-. auto.
    - right. intros (t & [= ->]). discriminate G. }
  destruct X as [(G & K)|G].
  - apply (sinv_free 1); [intros T; apply K, T|].
    eapply sinv_gm; [exact G| |exact Ho|exact Hs|exact E|exact P|intros T; apply K, T|exact H].
    split; [exact O1|]. split; [exact O2|]. split; [exact O3|]. destruct G as (t & ->). discriminate.
  - assert (M : sound_msg k' op /\ sinv k' (md_dev s) w).
    { assert (Same : (drums = true -> k' = k) -> (forall p v, op = MNoteOn 9 p v -> drums = true -> v = 0) -> sound_msg k' op /\ sinv k' (md_dev s) w).
      { intros K Z. split; [|apply (sinv_free k); assumption]. split; [exact O1|]. split; [exact O2|]. split; [exact O3|]. intros T p v Ep Hv. exfalso. exact (Hv (Z p v Ep T)). }
      destruct op as [c p v| | | | |data| | |]; cbn [drum_phase] in D; try (apply Same; [intros T; specialize (D T); congruence|discriminate]); try contradiction.
      - destruct ((c =? 9) && negb (v =? 0)) eqn:B; [|apply Same; [intros T; specialize (D T); congruence|]; intros p' v' [= -> -> ->] T; lia].
        destruct (Bool.bool_dec drums true) as [T|T]; [|apply Same; [contradiction|intros; contradiction]].
        specialize (D T). destruct (Z.eqb_spec k 0) as [|K]; [discriminate|]. injection D as <-. split.
        + split; [exact O1|]. split; [exact O2|]. split; [exact O3|]. auto.
        + destruct H as (L & S & C). split; [exact L|]. split; [|exact C]. intros j d Hd. destruct (S j d Hd) as (S1 & S2 & S3 & S4 & _).
          split; [exact S1|]. split; [exact S2|]. split; [exact S3|]. split; [auto|congruence].
      - destruct (is_gm_reset data) eqn:Gd; [apply gm_data in Gd; contradiction|]. apply Same; [intros T; specialize (D T); congruence|discriminate]. }
    destruct M as [M H']. refine (moves_inv (cv_step r n) (Some op) (menu op) (sinv k') _ _ _ _ _ (step_moves op s s' o Ho Hs E) (step_menu _ _ _ _ E) w H').
    + intros l t j d cs d' Hi Hj A _. eapply sinv_atom; eassumption.
    + intros l t c Pc Mc Hi. apply sinv_plain; [|exact Pc|exact Hi]. exact (menu_meek k' op c M N Mc).
Qed.
End Sound.

Theorem sound_invariant r n side (drums : bool) ops s cs : 0 <= n < 6 -> boots_to ops s cs -> Forall (sound_op side) ops -> (drums = true -> drums_in_order ops) ->
  exists k, sinv r n side drums k (md_dev s) (fold_left (cv_step r n) (skipn 4 cs) (cv0 r)).
Proof.
  intros Hn B F D.
  assert (X : Forall (sound_op side) ops -> forall k, (drums = true -> fold_left drum_phase ops (Some 0) = Some k) ->
     md_pref s = 2 /\ sinv r n side drums k (md_dev s) (fold_left (cv_step r n) (skipn 4 cs) (cv0 r))).
  { clear F D. revert B.
    apply (boots_ind (fun ops s cs => Forall (sound_op side) ops -> forall k, (drums = true -> fold_left drum_phase ops (Some 0) = Some k) ->
     md_pref s = 2 /\ sinv r n side drums k (md_dev s) (fold_left (cv_step r n) (skipn 4 cs) (cv0 r)))).
    - intros _ k Ek. split; [reflexivity|]. rewrite boot_first. change (skipn 4 (first_calls ++ boot_rest)) with boot_rest.
      apply (sinv_free r n side drums 0); [intros T; specialize (Ek T); injection Ek as <-; reflexivity|].
      split; [reflexivity|]. split.
      + intros j d Hd. split; [apply booted_ok, Hd|].
        assert (X : Forall (fun d => no_dac d /\ d_on d = false) (md_dev booted)) by (repeat (constructor; [split; [discriminate|reflexivity]|]); constructor).
        destruct (Forall_zget _ _ _ _ X Hd) as [X1 X2]. split; [exact X1|]. split; [congruence|]. split; [congruence|].
        intros _ J _. assert (R := zget_Some _ _ _ Hd). destruct (n_cases j) as [->|[->|[->|[->|[->| ->]]]]]; try lia; injection Hd as <-; discriminate.
      + intros d Hd. destruct (n_cases n Hn) as [->|[->|[->|[->|[->| ->]]]]]; injection Hd as <-;
          (split; [reflexivity|split; [reflexivity|split; [discriminate|left; reflexivity]]]).
    - intros ops0 op s0 cs0 s' o B0 Hs IH Ho E K k Ek. apply Forall_app in K as [K1 K2]. apply Forall_inv in K2.
      rewrite fold_left_app in Ek. cbn [fold_left] in Ek.
      assert (X : exists k0, (drums = true -> fold_left drum_phase ops0 (Some 0) = Some k0) /\ (drums = true -> drum_phase (Some k0) op = Some k)).
      { destruct drums; [|exists 0; split; discriminate]. specialize (Ek eq_refl).
        destruct (fold_left drum_phase ops0 (Some 0)) as [k0|]; [exists k0; auto|discriminate Ek]. }
      destruct X as (k0 & X1 & X2).
      destruct (IH K1 k0 X1) as [P I]. split; [eapply pref_step; [apply K2|exact Ho|exact Hs|exact E|exact P]|].
      destruct (boots_rest _ _ _ B0) as [t ->]. cbn [skipn Datatypes.app first_calls] in I |- *. rewrite fold_left_app.
      eapply sinv_step; eassumption. }
  unfold drums_in_order in D. destruct drums; [|exists 0; apply X; [exact F|discriminate]].
  destruct (fold_left drum_phase ops (Some 0)) as [k|]; [|exfalso; apply D; reflexivity]. exists k. apply X; [exact F|reflexivity].
Qed.
