(** Releasing a note, at the chip. *)
From Verif Require Import Base BaseLemmas PitchModel PitchSpec PitchProofs NotePriorityModel SynthModel SynthSpec SynthProofs SynthMirrorProofs SynthClaimsProofs SynthViewProofs.
From Verif Require Import MidiModel MidiSpec MidiProofs MidiOkProofs MidiEqProofs MidiEffectProofs MidiCallProofs MidiNoteProofs MidiChanProofs MidiTuneProofs MidiDevProofs MidiInvProofs MidiStaticProofs MidiPlaceProofs MidiClaimsProofs MidiGlideProofs.
From Verif Require Import PsgModel DevModel DevSpec DevProofs AppModel AppSpec AppProofs AppTraceProofs AppClaimsProofs AppViewProofs AppKeyProofs SoundSpec AppSoundProofs AppToneProofs AppNoteProofs GlideSpec GlideProofs.
From Verif Require LibraryProofs SongProofs.
From Verif Require Import MidiHistProofs GlideRunProofs.

(** A Note Off keys off the FM channel that sounds the only key down, in every mode. *)
Lemma sublist_in a l : sublist a l -> forall x : Z, In x a -> In x l.
Proof. induction 1; intros y Hy; [destruct Hy|right; auto|destruct Hy as [->|Hy]; [left; reflexivity|right; auto]]. Qed.
Lemma stack_held ops s o : boots_to ops s o -> forall c m q, ch_at s c m -> In q (keys (m_np m)) -> In (c, q) (held ops).
Proof.
  intros B c m q Hm Hq.
  assert (X : stack_inv (held ops) s).
  { apply (boot_induction held_after [] (fun _ => True) stack_inv) with (o := o); [| |apply Forall_forall; intros; exact Logic.I|exact B].
    - intros b x Hx. destruct (booted_ch _ _ Hx) as (-> & _). constructor.
    - intros op h s0 s' o' _ H2 H3 H4 H5 _. apply (stack_step op h s0 s' o'); assumption. }
  assert (I := sublist_in _ _ (X c m Hm) q (proj1 (in_rev _ _) Hq)). unfold MidiPlaceProofs.held_on in I. apply in_map_iff in I as ((a & b) & <- & I). apply filter_In in I as [I E]. cbn [fst snd] in *.
  apply Z.eqb_eq in E. subst a. exact I.
Qed.
Theorem assigned_released r hw mem ops c n p s tr d : history r hw mem ops s tr -> is_chan c -> MidiSpec.seven p -> 0 <= n < 6 ->
  dev_at (a_midi s) n d -> d_on d = true -> d_midi d = c -> note_of d = p ->
  (forall q, In (c, q) (held (map message ops)) -> q = p) -> without (is_cc 78) ops ->
  exists s' o, history r hw mem (ops ++ [AMsg (MNoteOff c p)]) s' (tr ++ o) /\ key_state o n = Some false.
Proof.
  intros H Hc Hp Hn Hd On Mid No Only W. assert (Om : mop_ok (MNoteOff c p)) by (cbn; auto). assert (Hr : rom_ok r) by apply H.
  destruct (history_played _ _ _ _ _ _ H) as (Hi & cs & B & P). assert (Hs : midi_ok (a_midi s)) by apply Hi.
  assert (ND : forall j e, dev_at (a_midi s) j e -> no_dac e).
  { apply (no_dac_boot _ _ _ B). apply Forall_forall. intros x Hin. exact (plain_messages (is_cc 78) ops (proj1 (cc_plain 78)) (proj2 (cc_plain 78)) W x Hin). }
  destruct (app_step_ok r Hr (AMsg (MNoteOff c p)) s Hi Om) as [(s' & o' & so & po & E & _)|[[_ (s' & o' & E & X)]|[_ X]]].
  2:{ exfalso. revert X. apply (no_dac_samples (MNoteOff c p) (a_midi s) s' o' ND Om); [intros (x & y & [=])|exact Hs|exact E]. }
  2:{ destruct X as (x & [=] & _). }
  exists s', o'. split; [exact (history_snoc _ _ _ _ (AMsg (MNoteOff c p)) _ _ _ _ H Om E)|].
  destruct (step_view r Hr n (AMsg (MNoteOff c p)) _ _ _ Hn Hi Om E) as (cs1 & St & V). cbn [message] in St.
  assert (A : forall w, v_key (cv_sv (fold_left (cv_step r n) cs1 w)) = Some false /\ v_raw (cv_sv (fold_left (cv_step r n) cs1 w)) = v_raw (cv_sv w)).
  { intros w. unfold steps in St; cbn [midi_step] in St. destruct (ok_ch_get (a_midi s) c Hs Hc) as (m & Hm & _).
    destruct (note_off_effect c p _ _ cs1 m Hs Hc Hm St) as (_ & Ec & _).
    assert (Fb : falls_back (a_midi s) m c p = false).
    { unfold falls_back, off_next. replace (off_stack m p) with (@nil Z); [apply andb_false_r|]. symmetry. unfold off_stack.
      destruct (filter _ _) as [|q t] eqn:F; [reflexivity|exfalso]. assert (Q : In q (filter (fun x => negb (x =? p)) (keys (m_np m)))) by (rewrite F; left; reflexivity).
      apply filter_In in Q as [Q1 Q2]. assert (q = p) by (apply Only; exact (stack_held _ _ _ B c m q Hm Q1)). lia. }
    assert (Sv : serves_note c p d = true).
    { destruct (ok_dev _ _ _ Hs Hd) as [(_ & _ & _ & _ & _ & _ & _ & _ & Hg) _]. unfold serves_note. rewrite Mid, Z.eqb_refl. cbn [andb]. unfold MidiSpec.seven in Hg.
      rewrite playing_note by lia. rewrite On, No, Z.eqb_refl. reflexivity. }
    assert (Ops : d_ops d = VFm /\ d_num d = n).
    { destruct (ok_dev _ _ _ Hs Hd) as [Hdo _]. destruct Hdo as (Sh & _). destruct Sh as [S1 _]. destruct (S1 ltac:(lia)) as [S2 [S3|[_ S3]]]; [auto|]. exfalso. exact (ND n d Hd S3). }
    destruct Ops as [Ops Num].
    destruct (flat_split (a_midi s) n d (note_off_calls (a_midi s) m c p) r (numbered_ok _ Hs) Hd) as (a & b & E1 & Sa & Sb).
    { intros e x Hx. unfold note_off_calls in Hx. rewrite Fb in Hx. unfold off_calls in Hx. destruct (serves_note c p e); [|destruct Hx].
      destruct Hx as [<-|[]]. reflexivity. }
    rewrite Ec, E1. unfold note_off_calls. rewrite Fb. unfold off_calls. rewrite Sv, Ops, Num, !fold_left_app.
    destruct (Sa w) as (A1 & _ & A3 & _). set (w1 := fold_left (cv_step r n) a w) in *.
    destruct (Sb (fold_left (cv_step r n) [DNoteOff VFm n p] w1)) as (B1 & _ & B3 & _). rewrite B1, B3, <- A3.
    cbn [fold_left cv_step cv_sops cv_sv sv_step]. rewrite Z.eqb_refl. split; reflexivity. }
  destruct (A (cv_now n (a_dev s))) as [A1 A2].
  destruct (V _ [] (cv_now_holds n (a_dev s))) as (_ & _ & _ & (_ & _ & _ & K1) & _). destruct (K1 A2) as [K2 _]. rewrite <- A1. exact K2.
Qed.
