(** Invariants relating the device channels to the calls made so far. *)
From Verif Require MidiChanProofs.
From Verif Require Import Base BaseLemmas SynthModel MidiModel MidiSpec MidiProofs MidiOkProofs MidiEqProofs MidiEffectProofs MidiDevProofs MidiCallProofs.

(** Induction over histories, with the calls. *)
Lemma boots_ind (J : list mop -> midi -> list dcall -> Prop) :
  J [] booted boot_calls ->
  (forall ops op s cs s' o, boots_to ops s cs -> midi_ok s -> J ops s cs -> mop_ok op -> steps s op s' o -> J (ops ++ [op]) s' (cs ++ o)) ->
  forall ops s cs, boots_to ops s cs -> J ops s cs.
Proof.
  intros H0 H1 ops. induction ops as [|op ops IH] using rev_ind; intros s cs B.
  - destruct (boots_run _ _ _ B) as (_ & o & E & ->). injection E as <- <-. rewrite app_nil_r. exact H0.
  - destruct (boots_run _ _ _ B) as (Ho & o & E & ->). apply Forall_app in Ho as [Ho1 Ho2]. apply Forall_inv in Ho2.
    assert (X : exists s1 o1 o2, midi_run ops booted = WDone s1 o1 /\ steps s1 op s o2 /\ o = o1 ++ o2).
    { clear -E. revert E. generalize booted. revert s o. induction ops as [|x t IH]; intros s o z E; cbn [midi_run Datatypes.app] in E.
      - apply wbind_inv in E as (s1 & o1 & o2 & E1 & E2 & ->). injection E2 as <- <-. exists z, [], o1. rewrite app_nil_r. split; [reflexivity|]. split; [exact E1|reflexivity].
      - apply wbind_inv in E as (s1 & o1 & o2 & E1 & E2 & ->). destruct (IH _ _ _ E2) as (s2 & o3 & o4 & F1 & F2 & ->).
        exists s2, (o1 ++ o3), o4. split; [|split; [exact F2|apply app_assoc]]. cbn [midi_run]. unfold wbind. rewrite E1, F1. reflexivity. }
    destruct X as (s1 & o1 & o2 & R & S & ->).
    assert (B1 : boots_to ops s1 (boot_calls ++ o1)).
    { split; [exact Ho1|]. rewrite midi_boot_eq. unfold wbind. rewrite R. reflexivity. }
    rewrite app_assoc. eapply H1; [exact B1|exact (boots_ok _ _ _ B1)|apply IH, B1|exact Ho2|exact S].
Qed.

Lemma moves_inv {T} (f : T -> dcall -> T) op (Q : dcall -> Prop) (J : list dev -> T -> Prop) :
  (forall l t j d cs d', J l t -> zget l j = Some d -> datom op j d cs d' -> Forall Q cs -> J (zset l j d') (fold_left f cs t)) ->
  (forall l t c, plain_call c -> Q c -> J l t -> J l (f t c)) ->
  forall l cs l', moves op 0 l cs l' -> Forall Q cs -> forall t, J l t -> J l' (fold_left f cs t).
Proof.
  intros HA HP l cs l' M. induction M as [l|l j d a d' b l' E A M IH|l c a l' P M IH]; intros HQ t H; [exact H| |].
  - apply Forall_app in HQ as [Q1 Q2]. rewrite fold_left_app. apply IH; [exact Q2|]. eapply HA; eassumption.
  - apply Forall_cons_iff in HQ as [Q1 Q2]. cbn [fold_left]. apply IH; [exact Q2|]. apply HP; assumption.
Qed.

Lemma step_menu op s s' o : steps s op s' o -> Forall (menu op) o.
Proof. intros E. assert (M := calls_menu op s). unfold steps in E. rewrite E in M. exact (M _ _ eq_refl). Qed.

Lemma reset_moves s s' o : midi_ok s -> steps s MReset s' o ->
  exists o', o = DPsgReset :: DFmReset :: DSmReset :: o' /\ moves (Some MReset) 0 (md_dev s) o' (md_dev s').
Proof.
  intros Hs E. unfold steps in E. cbn [midi_step] in E.
  unfold reset in E. do 3 apply emit_inv in E as (? & E & ->). cbv zeta in E.
  rewrite reset_channels_eq in E by apply Hs. injection E as <- <-. eexists. split; [reflexivity|]. cbn [md_dev].
  rewrite <- (app_nil_r (init_calls _ _ _ _)).
  match goal with |- moves _ _ _ _ (assign_modes _ _ ?l) => apply moves_app with l end.
  + apply moves_init. intros j d _ _. right; right; left. reflexivity.
  + apply moves_assign. left. split; [intros j d; apply init_all_off|]. right; left; reflexivity.
Qed.
(** A General MIDI reset: first every channel is silenced. *)
Lemma gm_moves op s s' o : midi_ok s -> gm_reset_msg op -> steps s op s' o ->
  exists devs o1 o2, o = o1 ++ o2 /\ moves (Some MTick) 0 (md_dev s) o1 devs /\ moves (Some op) 0 devs o2 (md_dev s') /\
    (forall j d, zget devs j = Some d -> d_on d = false \/ ~ is_chan (d_midi d)) /\
    md_pref s' = md_pref s /\ md_dyn s' = (if md_pref s =? 2 then true else md_dyn s) /\
    (forall j d', zget (md_dev s') j = Some d' -> exists d, zget devs j = Some d /\ d' = dev_after_init (md_dyn s') j d).
Proof.
  intros Hs (t & ->) E. unfold steps in E. cbn [midi_step] in E. rewrite MidiChanProofs.gm_sysex in E by reflexivity.
  unfold general_midi_reset in E. apply wbind_inv in E as (s2 & o2 & o3 & E1 & E2 & ->). cbv zeta in E2.
  destruct (all_channels_off_eq (zseq 0 16) s) as (devs & o4 & E4 & L & H1 & _). rewrite E4 in E1. injection E1 as <- <-.
  cbn [md_pref md_set_dev] in E2.
  set (s3 := if md_pref s =? 2 then md_set_dyn (md_set_dev s devs) true else md_set_dev s devs) in *.
  assert (E5 : md_dev s3 = devs) by (unfold s3; destruct (_ =? _); reflexivity).
  assert (E6 : md_pref s3 = md_pref s) by (unfold s3; destruct (_ =? _); reflexivity).
  assert (E7 : md_dyn s3 = (if md_pref s =? 2 then true else md_dyn s)) by (unfold s3; destruct (_ =? _); reflexivity).
  assert (Hl : length devs = 13%nat) by (rewrite L; apply Hs).
  assert (P : forall j d, zget devs j = Some d -> d_on d = false \/ ~ is_chan (d_midi d)).
  { intros j d Hd. destruct (zget_in_range (md_dev s) j) as [d0 Hd0]; [apply zget_Some in Hd; lia|].
    destruct (H1 j d0 Hd0) as (d1 & G1 & G2 & G3). rewrite Hd in G1. injection G1 as <-.
    destruct G2 as [-> | ->]; [|left; reflexivity].
    destruct (Z_le_gt_dec 0 (d_midi d0)); [destruct (Z_lt_le_dec (d_midi d0) 16)|].
    - left. assert (Hi : In (d_midi d0) (zseq 0 16)) by (apply in_zseq; lia). specialize (G3 Hi). rewrite G3. reflexivity.
    - right. unfold is_chan. lia.
    - right. unfold is_chan. lia. }
  rewrite reset_channels_eq in E2 by (rewrite E5; exact Hl). injection E2 as <- <-. cbn [md_dev md_pref md_dyn].
  exists devs, o4, (init_calls init_chs (fun _ => true) 0 (md_dev s3)). rewrite E5.
  split; [reflexivity|]. split; [apply (moves_channels_off _ _ _ _ _ E4)|]. split; [|split; [exact P|split; [exact E6|split; [exact E7|]]]].
  - rewrite <- (app_nil_r (init_calls _ _ _ _)).
    match goal with |- moves _ _ _ _ (assign_modes _ _ ?l) => apply moves_app with l end.
    + apply moves_init. intros j d Hd _. right; right; right. split; [eexists; split; [reflexivity|]; exists t; reflexivity|exact (P j d Hd)].
    + apply moves_assign. left. split; [intros j d; apply init_all_off|]. right; right. eexists; split; [reflexivity|]. exists t; reflexivity.
  - intros j d' Hd'. apply reset_dev_get in Hd' as (_ & d0 & H0 & ->); [|exact Hl]. eauto.
Qed.

(** Moves keep the kind and number of a device channel. *)
Lemma atom_shape op i d cs d' : 0 <= i < 13 -> datom op i d cs d' -> shape_ok i d -> shape_ok i d'.
Proof.
  intros Hi A S. destruct A; try exact S.
  - unfold pressed. destruct (back c d); exact S.
  - unfold shape_ok, fresh_dev, u8; cbn. destruct (Z.leb_spec i 5); [|destruct (Z.leb_spec i 9)]; repeat split; intros; try lia; auto;
      rewrite Z.mod_small by lia; reflexivity.
  - subst i. destruct S as [S _]. destruct (S ltac:(lia)) as [S1 _]. unfold shape_ok; cbn. repeat split; intros; try lia.
    destruct b; auto.
Qed.
Definition no_dac (d : dev) : Prop := d_ops d <> VDac.
Lemma atom_no_dac op i d cs d' : ~ because (is_cc 78) op -> datom op i d cs d' -> no_dac d -> no_dac d'.
Proof.
  intros N A S. destruct A; try exact S.
  - unfold pressed. destruct (back c d); exact S.
  - unfold no_dac, fresh_dev; cbn. destruct (i <=? 5); [|destruct (i <=? 9)]; discriminate.
  - contradiction.
Qed.

(** The device channels after a System Reset. *)
Lemma reset_devs s s' o : midi_ok s -> steps s MReset s' o -> md_dyn s' = false /\ md_pref s' = 2 /\
  forall j d, zget (md_dev s') j = Some d -> exists d0, zget (md_dev s) j = Some d0 /\ d = dev_after_init false j d0.
Proof.
  intros Hs E. unfold steps in E. cbn [midi_step] in E.
  unfold reset in E. do 3 apply emit_inv in E as (? & E & ->). cbv zeta in E.
  rewrite reset_channels_eq in E by apply Hs. injection E as <- _. cbn [md_dev md_dyn md_pref md_set_dyn].
  split; [reflexivity|]. split; [reflexivity|]. intros j d Hd. apply reset_dev_get in Hd; [|apply Hs]. apply Hd.
Qed.
Lemma reset_dev_facts j d0 : let d := dev_after_init false j d0 in
  d_on d = false /\ no_dac d /\ d_vol d = 127 /\ d_pan d = 64 /\ d_prog d = 0 /\ d_bend d = BEND_CENTRE /\ d_midi d = j.
Proof.
  cbv zeta. unfold no_dac, dev_after_init, fresh_dev; cbn. repeat (split; [reflexivity|]).
  split; [destruct (j <=? 5); [|destruct (j <=? 9)]; discriminate|]. repeat (split; [reflexivity|]). reflexivity.
Qed.
