(** Which calls to the sound layers each message can make. *)
From Verif Require Import Base BaseLemmas NotePriorityModel SynthModel MidiModel MidiSpec MidiProofs.

Definition wcalls {A} (P : dcall -> Prop) (m : wres A) : Prop := forall a o, m = WDone a o -> Forall P o.

Section Calls.
Context (P : dcall -> Prop).
Lemma wcalls_ret {A} (a : A) : wcalls P (wret a).
Proof. intros b o [= <- <-]. constructor. Qed.
Lemma wcalls_fault {A} f : wcalls P (@WFault A f).
Proof. intros b o [=]. Qed.
Lemma wcalls_emit c : P c -> wcalls P (wemit c).
Proof. intros H b o [= <- <-]. constructor; [exact H|constructor]. Qed.
Lemma wcalls_bind {A B} (m : wres A) (k : A -> wres B) : wcalls P m -> (forall a, wcalls P (k a)) -> wcalls P (wbind m k).
Proof.
  intros Hm Hk b o. unfold wbind. destruct m as [a o1|]; [|discriminate]. destruct (k a) as [c o2|] eqn:E; [|discriminate].
  intros [= <- <-]. apply Forall_app. split; [exact (Hm _ _ eq_refl)|exact (Hk _ _ _ E)].
Qed.
Lemma wcalls_bind_ret {A B} (a : A) (k : A -> wres B) : wcalls P (k a) -> wcalls P (wbind (wret a) k).
Proof. intros H b o. unfold wbind, wret. destruct (k a) as [c o2|] eqn:E; [|discriminate]. intros [= <- <-]. exact (H _ _ eq_refl). Qed.
Lemma wcalls_get {A} (l : list A) i : wcalls P (wget l i).
Proof. unfold wget. destruct (zget l i); [apply wcalls_ret|apply wcalls_fault]. Qed.
Lemma wcalls_data l i : wcalls P (wdata l i).
Proof. unfold wdata. destruct (zget l i); [apply wcalls_ret|apply wcalls_fault]. Qed.
Lemma wcalls_np {A} (m : M npstack A) s : wcalls P (of_np m s).
Proof. unfold of_np. destruct (m s); [apply wcalls_ret|apply wcalls_fault]. Qed.
Lemma wcalls_for_with mc f l : (forall d, wcalls P (f d)) -> wcalls P (for_with mc f l).
Proof.
  intros H. induction l as [|d t IH]; cbn [for_with]; [apply wcalls_ret|].
  apply wcalls_bind; [destruct (d_midi d =? mc); [apply H|apply wcalls_ret]|]. intros d'.
  apply wcalls_bind; [exact IH|]. intros t'. apply wcalls_ret.
Qed.
Lemma wcalls_find devs p is : wcalls P (find_dev devs p is).
Proof.
  induction is as [|i t IH]; cbn [find_dev]; [apply wcalls_ret|]. apply wcalls_bind; [apply wcalls_get|].
  intros d. destruct (p d); [apply wcalls_ret|exact IH].
Qed.
Lemma wcalls_square devs m inc l : wcalls P (square_loop devs m inc l).
Proof.
  induction l as [|p t IH]; cbn [square_loop]; [apply wcalls_ret|]. destruct (m_prog m =? p); [|exact IH].
  apply wcalls_bind; [apply wcalls_find|]. intros [i|]; [apply wcalls_ret|exact IH].
Qed.
Lemma wcalls_init_devices chs sel : (forall i d, wcalls P (init_device_channel chs i d)) -> forall l i, wcalls P (init_devices chs sel i l).
Proof.
  intros H. induction l as [|d t IH]; intros i; cbn [init_devices]; [apply wcalls_ret|].
  apply wcalls_bind; [destruct (sel d); [apply H|apply wcalls_ret]|]. intros d'.
  apply wcalls_bind; [apply IH|]. intros t'. apply wcalls_ret.
Qed.
Lemma wcalls_note_off_loop chs mc pitch next single m :
  (forall d n v, wcalls P (dev_chan_note_on chs d n v)) -> (forall d n, wcalls P (dev_chan_note_off d n)) ->
  forall l h st, wcalls P (note_off_loop chs mc pitch next single m h st l).
Proof.
  intros H1 H2. induction l as [|d t IH]; intros h st; cbn [note_off_loop]; [apply wcalls_ret|].
  assert (K : forall h st (f : npstack * list dev -> wres (npstack * list dev)), (forall x, wcalls P (f x)) -> wcalls P (wbind (note_off_loop chs mc pitch next single m h st t) f))
    by (intros; apply wcalls_bind; auto).
  destruct (_ && _); [|apply K; intros [? ?]; apply wcalls_ret].
  destruct (negb h && single && negb (next =? 0)).
  - apply wcalls_bind.
    + destruct (m_porta m); [apply wcalls_bind; [apply wcalls_np|intros [? ?]; apply wcalls_ret]|apply wcalls_bind; [apply H1|intros ?; apply wcalls_ret]].
    + intros [? ?]. apply K. intros [? ?]. apply wcalls_ret.
  - apply wcalls_bind; [apply H2|]. intros d'. apply K. intros [? ?]. apply wcalls_ret.
Qed.
Lemma wcalls_remap m d s : wcalls P (midi_remap_channel m d s).
Proof.
  unfold midi_remap_channel. destruct (_ && _); [apply wcalls_ret|]. destruct (d =? 0x7F).
  - apply wcalls_bind; [apply wcalls_find|]. intros [i|]; [|apply wcalls_ret]. apply wcalls_bind; [apply wcalls_get|]. intros x. apply wcalls_ret.
  - destruct (DEV_CHANS <=? d); [apply wcalls_ret|]. apply wcalls_bind; [apply wcalls_get|]. intros x. apply wcalls_ret.
Qed.
Lemma wcalls_remap_all is : forall s, wcalls P (remap_all is s).
Proof.
  induction is as [|i t IH]; intros s; cbn [remap_all]; [apply wcalls_ret|]. apply wcalls_bind; [apply wcalls_remap|]. exact IH.
Qed.
Lemma wcalls_all_off is : (forall c s, wcalls P (all_notes_off c s)) -> forall s, wcalls P (all_channels_off is s).
Proof.
  intros H. induction is as [|i t IH]; intros s; cbn [all_channels_off]; [apply wcalls_ret|]. apply wcalls_bind; [apply H|]. exact IH.
Qed.
Lemma wcalls_fm_loop chan k v : (forall n s, wcalls P (set_fm_chan_parameter n k v s)) -> forall is s, wcalls P (fm_parameter_loop chan k v is s).
Proof.
  intros H. induction is as [|i t IH]; intros s; cbn [fm_parameter_loop]; [apply wcalls_ret|].
  apply wcalls_bind; [apply wcalls_get|]. intros d. apply wcalls_bind; [destruct (d_midi d =? chan); [apply H|apply wcalls_ret]|]. exact IH.
Qed.
Lemma wcalls_store_from ch p l : (forall n, P (DStoreFrom n p)) -> wcalls P (store_from_loop ch p l).
Proof.
  intros H. induction l as [|d t IH]; cbn [store_from_loop]; [apply wcalls_ret|]. destruct (_ && _); [apply wcalls_emit, H|exact IH].
Qed.
Lemma wcalls_clear_all is : (forall n, P (DClear n)) -> wcalls P (clear_all_loop is).
Proof.
  intros H. induction is as [|i t IH]; cbn [clear_all_loop]; [apply wcalls_ret|]. apply wcalls_bind; [apply wcalls_emit, H|]. intros _. exact IH.
Qed.
Lemma wcalls_envelope data : wcalls P (envelope_bytes data).
Proof.
  assert (H : forall n data, (length data < n)%nat -> wcalls P (envelope_bytes data)).
  { induction n as [|n IH]; intros l Hl; [lia|]. destruct l as [|a [|b t]]; cbn [envelope_bytes]; [apply wcalls_ret|apply wcalls_fault|].
    apply wcalls_bind; [apply IH; cbn in Hl; lia|]. intros r. apply wcalls_ret. }
  exact (H _ _ (Nat.lt_succ_diag_r _)).
Qed.
Lemma wcalls_portamento chs : (forall p d, wcalls P (process_channel_glide chs p d)) -> forall l, wcalls P (process_portamento chs l).
Proof.
  intros H. induction l as [|d t IH]; cbn [process_portamento]; [apply wcalls_ret|].
  apply wcalls_bind; [destruct (d_midi d =? UNASSIGNED); [apply wcalls_ret|]; apply wcalls_bind; [apply wcalls_get|]; intros m; destruct (_ && _); [apply H|apply wcalls_ret]|].
  intros d'. apply wcalls_bind; [exact IH|]. intros t'. apply wcalls_ret.
Qed.
End Calls.

Ltac calls_step :=
  first [ apply wcalls_ret | apply wcalls_fault | apply wcalls_get | apply wcalls_data | apply wcalls_np
        | apply wcalls_emit; cbn; auto; fail | apply wcalls_for_with; intros ? | apply wcalls_find | apply wcalls_square
        | apply wcalls_init_devices; intros ? ? | apply wcalls_note_off_loop; [intros ? ? ?|intros ? ?] | apply wcalls_remap
        | apply wcalls_remap_all | apply wcalls_all_off; intros ? ? | apply wcalls_fm_loop; intros ? ?
        | apply wcalls_store_from; intros ?; cbn; auto; fail | apply wcalls_clear_all; intros ?; cbn; auto; fail | apply wcalls_envelope
        | apply wcalls_portamento; intros ? ?
        | apply wcalls_bind; [|intros ?]
        | match goal with
          | |- wcalls _ (if ?b then _ else _) => destruct b
          | |- wcalls _ (match ?x with _ => _ end) => destruct x
          | |- wcalls _ (let x := _ in _) => cbv zeta
          end ].
Ltac calls_head m := match m with ?f _ => calls_head f | _ => unfold m end.
Ltac calls_go := repeat first [ calls_step | match goal with |- wcalls _ ?m => calls_head m end ].

(** ** What each message may call *)
Definition voice_call (c : dcall) : Prop :=
  match c with
  | DNoteOn _ _ _ _ _ | DNoteOff _ _ _ | DVolume _ _ _ | DProgram _ _ _ | DAllOff _ _ | DPan _ _ _ | DPitch _ _ _ _ | DPerc _ _ => True
  | _ => False
  end.
(** Setters of synth.c behind controllers. *)
Definition setter (op : sop) : Prop :=
  match op with
  | SStereo _ _ | SAlgorithm _ _ | SFeedback _ _ | SAms _ _ | SFms _ _ | STotalLevel _ _ _ | SMultiple _ _ _ | SDetune _ _ _
  | SRateScaling _ _ _ | SAttackRate _ _ _ | SDecayRate _ _ _ | SSustainRate _ _ _ | SSustainLevel _ _ _ | SAmpMod _ _ _
  | SReleaseRate _ _ _ | SSsgEg _ _ _ | SEnableLfo _ | SLfoFrequency _ => True
  | _ => False
  end.
Definition menu (op : mop) (c : dcall) : Prop :=
  match op with
  | MNoteOn _ _ _ | MNoteOff _ _ | MBend _ _ | MTick => voice_call c
  | MProgram _ _ => voice_call c \/ exists k a b d, c = DChange k a b d
  | MCc _ k _ =>
      voice_call c \/ (exists t a b d, c = DChange t a b d) \/ (exists a b, c = DUi a b) \/
      (k = 87 /\ exists n p, c = DStoreFrom n p) \/ (exists o, c = DSynth o /\ setter o /\ exists a x, fm_controls k a x = Some o) \/
      (k = 78 /\ exists b, c = DSynth (SDac b)) \/ (k = 80 /\ exists b, c = DSynth (SSpecialMode b))
  | MSysex data =>
      (gm_reset_msg op /\ voice_call c) \/
      (is_sysex_cmd 1 op /\ exists l, c = DTx l) \/
      (is_sysex_cmd 6 op /\ exists e, c = DEnv e) \/
      ((is_sysex_cmd 8 op \/ is_sysex_cmd 9 op) /\ exists p r d, c = DSynth (SDirect p r d)) \/
      (is_sysex_cmd 10 op /\ exists n p, c = DStore n p) \/
      ((is_sysex_cmd 11 op \/ is_sysex_cmd 12 op) /\ exists n, c = DClear n) \/
      (is_sysex_cmd 13 op /\ exists n, c = DDumpPreset n) \/
      (is_sysex_cmd 15 op /\ exists a n, c = DDumpChan a n)
  | MReset => voice_call c \/ c = DPsgReset \/ c = DFmReset \/ c = DSmReset
  | MCallback _ => False
  end.
(** A message other than a reset; nothing reaches the chips' initialisation. *)
Lemma setter_of s num k v op : fm_parameter s num k v = Some op -> setter op.
Proof.
  unfold fm_parameter. intros H.
  repeat match type of H with (if ?b then _ else _) = _ => destruct b; [injection H as <-; exact I|] end. discriminate.
Qed.
Lemma controls_of s num k v op : fm_parameter s num k v = Some op -> exists a x, fm_controls k a x = Some op.
Proof.
  unfold fm_parameter. cbv zeta. intros H. exists num.
  repeat match type of H with (if ?b then _ else _) = _ => destruct b eqn:?; [injection H as <-; eexists; unfold fm_controls; cbv zeta;
    repeat match goal with |- context [if ?b then _ else _] => let E := fresh in destruct b eqn:E; [try lia; reflexivity|try lia]; clear E end|] end.
  discriminate.
Qed.
Lemma prefix_app p : forall data, has_prefix p data = true -> exists t, data = p ++ t.
Proof.
  induction p as [|x p IH]; intros data H; [exists data; reflexivity|]. destruct data as [|y d]; [discriminate|].
  cbn in H. apply andb_prop in H as [H1 H2]. apply Z.eqb_eq in H1 as ->. destruct (IH _ H2) as [t ->]. exists t. reflexivity.
Qed.

Theorem calls_menu op s : wcalls (menu op) (midi_step op s).
Proof.
  destruct op as [c p v|c p|c k v|c p|c b|data| | |b]; cbn [midi_step].
  - calls_go.
  - calls_go.
  - (* controllers *)
    unfold midi_cc. apply wcalls_bind; [|intros s'; apply wcalls_bind; [|intros _; apply wcalls_ret]].
    2:{ unfold notify_change. destruct (md_cb s'); [|apply wcalls_ret]. apply wcalls_emit. right; left. eauto. }
    unfold cc_action. apply wcalls_bind; [apply wcalls_get|intros _].
    destruct (k =? 5); [calls_go|]. destruct (k =? 7); [calls_go|]. destruct (k =? 10); [calls_go|].
    destruct (_ || _); [calls_go|]. destruct (k =? 84); [calls_go|].
    destruct (Z.eqb_spec k 80) as [->|].
    { apply wcalls_bind; [|intros _; apply wcalls_ret]. apply wcalls_emit. do 6 right. split; [reflexivity|eauto]. }
    destruct (k =? 121); [calls_go|].
    destruct (k =? 83). { destruct (md_nogm s); [apply wcalls_ret|]. apply wcalls_bind; [|intros _; apply wcalls_ret]. apply wcalls_emit. right; right; left. eauto. }
    destruct (k =? 86); [calls_go|]. destruct (k =? 65); [calls_go|]. destruct (k =? 85); [calls_go|].
    destruct (k =? 6); [calls_go|]. destruct (k =? 38); [calls_go|]. destruct (k =? 101); [calls_go|]. destruct (k =? 100); [calls_go|].
    destruct (_ || _); [calls_go|].
    destruct (Z.eqb_spec k 87). { apply wcalls_bind; [|intros _; apply wcalls_ret]. apply wcalls_store_from. intros num. do 3 right. left. eauto. }
    unfold fm_parameter_cc. apply wcalls_fm_loop. intros num s0. unfold set_fm_chan_parameter.
    destruct (Z.eqb_spec k 78) as [->|].
    + destruct (md_nogm s0); [apply wcalls_ret|]. unfold enable_dac. apply wcalls_bind; [apply wcalls_get|]. intros d. cbv zeta.
      apply wcalls_bind; [|intros _; apply wcalls_ret]. apply wcalls_emit. do 5 right. left. split; [reflexivity|eauto].
    + destruct (fm_parameter s0 num k v) as [op|] eqn:E; [|apply wcalls_ret]. destruct (md_nogm s0); [apply wcalls_ret|].
      apply wcalls_bind; [|intros _; apply wcalls_ret]. apply wcalls_emit. do 4 right. left. exists op. split; [reflexivity|]. split; [exact (setter_of _ _ _ _ _ E)|exact (controls_of _ _ _ _ _ E)].
  - unfold midi_program. apply wcalls_bind; [apply wcalls_get|]. intros m. cbv zeta. apply wcalls_bind; [|intros devs].
    + apply wcalls_for_with. intros d. calls_go.
    + apply wcalls_bind; [|intros _; apply wcalls_ret]. unfold notify_change. destruct (md_cb _); [|apply wcalls_ret]. apply wcalls_emit. right. eauto.
  - calls_go.
  - (* system exclusive *)
    unfold midi_sysex. destruct (Z.of_nat (length data) <? 4); [apply wcalls_ret|].
    destruct (has_prefix [0x7E; 0x7F; 0x09; 0x01] data) eqn:Eg.
    { apply prefix_app in Eg as [t ->].
      assert (G : gm_reset_msg (MSysex ([126; 127; 9; 1] ++ t))) by (exists t; reflexivity). revert G. generalize ([126; 127; 9; 1] ++ t) as D. intros D G.
      assert (X : wcalls voice_call (general_midi_reset s)) by calls_go.
      intros a o E. eapply Forall_impl; [|exact (X a o E)]. intros x Hx. left. split; assumption. }
    destruct (has_prefix [0x00; 0x22; 0x77] data) eqn:Eo; cbn [negb]; [|apply wcalls_ret].
    apply prefix_app in Eo as [t ->]. destruct t as [|cmd args]; [apply wcalls_fault|]. clear Eg.
    change (wdata ([0; 34; 119] ++ cmd :: args) 3) with (wret cmd).
    change (skipn 4 ([0; 34; 119] ++ cmd :: args)) with args.
    assert (Hc : is_sysex_cmd cmd (MSysex ([0; 34; 119] ++ cmd :: args))) by (exists args; reflexivity).
    apply wcalls_bind_ret.
    set (P := menu (MSysex ([0; 34; 119] ++ cmd :: args))).
    destruct (sysex_handler cmd) as [h|] eqn:E; [|apply wcalls_ret]. unfold sysex_handler in E.
    assert (K : (cmd = 0 \/ cmd = 3 \/ cmd = 4 \/ cmd = 5 \/ cmd = 7) \/ cmd = 1 \/ cmd = 6 \/ cmd = 8 \/ cmd = 9 \/ cmd = 10 \/ cmd = 11 \/ cmd = 12 \/ cmd = 13 \/ cmd = 15).
    { destruct cmd as [|q|q]; [auto| |discriminate]. repeat (destruct q as [q|q|]; try discriminate; try tauto). }
    destruct K as [K|[K|[K|[K|[K|[K|[K|[K|[K|K]]]]]]]]].
    + assert (E' := E). destruct K as [->|[->|[->|[->| ->]]]]; cbn in E; injection E as <-; calls_go.
    + subst cmd. injection E as <-.
      assert (HP : forall l, P (DTx l)) by (intros l; right; left; eauto). clearbody P. calls_go.
    + subst cmd. injection E as <-.
      assert (HP : forall l, P (DEnv l)) by (intros l; right; right; left; eauto). clearbody P. calls_go.
    + subst cmd. injection E as <-.
      assert (HP : forall p r d, P (DSynth (SDirect p r d))) by (intros; do 3 right; left; eauto 10). clearbody P. calls_go.
    + subst cmd. injection E as <-.
      assert (HP : forall p r d, P (DSynth (SDirect p r d))) by (intros; do 3 right; left; eauto 10). clearbody P. calls_go.
    + subst cmd. injection E as <-.
      assert (HP : forall p r, P (DStore p r)) by (intros; do 4 right; left; eauto 10). clearbody P. calls_go.
    + subst cmd. injection E as <-.
      assert (HP : forall p, P (DClear p)) by (intros; do 5 right; left; eauto 10). clearbody P. calls_go.
    + subst cmd. injection E as <-.
      assert (HP : forall p, P (DClear p)) by (intros; do 5 right; left; eauto 10). clearbody P. calls_go.
    + subst cmd. injection E as <-.
      assert (HP : forall p, P (DDumpPreset p)) by (intros; do 6 right; left; eauto 10). clearbody P. calls_go.
    + subst cmd. injection E as <-.
      assert (HP : forall p q, P (DDumpChan p q)) by (intros; do 7 right; eauto 10). clearbody P. calls_go.
  - calls_go.
  - calls_go.
  - apply wcalls_ret.
Qed.
