(** Tuning controllers that arrive while notes sound. *)
From Verif Require Import Base BaseLemmas PitchModel PitchSpec PitchProofs SynthModel SynthSpec SynthProofs SynthMirrorProofs SynthClaimsProofs SynthViewProofs.
From Verif Require Import MidiModel MidiSpec MidiProofs MidiOkProofs MidiEqProofs MidiEffectProofs MidiCallProofs MidiChanProofs MidiTuneProofs MidiDevProofs MidiInvProofs MidiStaticProofs MidiPlaceProofs.
From Verif Require Import PsgModel DevModel DevSpec DevProofs AppModel AppSpec AppProofs AppTraceProofs AppClaimsProofs AppViewProofs AppKeyProofs SoundSpec AppSoundProofs AppToneProofs AppNoteProofs TuneSpec.

Definition off_call (n : Z) (x : dcall) : Prop := off_voice n x \/ exists a b k d, x = DChange a b k d.
Lemma cv_off_calls r n cs : forall w, Forall (off_call n) cs -> cv_sv (fold_left (cv_step r n) cs w) = cv_sv w.
Proof.
  induction cs as [|x t IH]; intros w F; [reflexivity|]. cbn [fold_left]. rewrite (IH _ (Forall_inv_tail F)).
  destruct (Forall_inv F) as [O|(a & b & k & d & ->)]; [apply cv_off_voice, O|reflexivity].
Qed.
(** One [DPitch] at most for each device channel, then only the callback. *)
Definition one_pitch (h : dev -> list dcall) : Prop :=
  forall e, h e = [] \/ exists p q, h e = [DPitch (d_ops e) (d_num e) p q].

Section Sweep.
Context (r : rom) (hw : hardware) (mem : list Z) (ops : list aop) (msg : mop) (s0 s : app) (tr0 o : list event).
Context (H0 : history r hw mem ops s0 tr0) (H : history r hw mem (ops ++ [AMsg msg]) s (tr0 ++ o)).
Context (W : without raw_write ops).
Context (c : Z) (h : dev -> list dcall) (tl : list dcall) (h1 : one_pitch h) (T : Forall (fun x => exists a b k d, x = DChange a b k d) tl).
Context (St : exists s', midi_step msg (a_midi s0) = WDone s' (flat_map (calls_at c h) (md_dev (a_midi s0)) ++ tl)).

Lemma sweep n d : 0 <= n < 6 -> dev_at (a_midi s0) n d ->
  key_state (tr0 ++ o) n = key_state tr0 n /\
  (calls_at c h d = [] -> chip_freq (tr0 ++ o) n = chip_freq tr0 n) /\
  (forall p q, calls_at c h d = [DPitch VFm n p q] -> chip_freq (tr0 ++ o) n = Some (fm_note r p q)).
Proof.
  intros Hn Hd. assert (H' := H0). destruct H' as (Hr & Hm & _ & _).
  destruct (history_last _ _ _ _ _ _ _ _ _ H0 H) as (Ho & cs1 & St1 & Pa).
  destruct (history_played _ _ _ _ _ _ H0) as ((Hs & Hdi & Hg) & cs & B & P).
  destruct (step_ok _ _ _ _ Hs Ho St1) as [_ Hc1].
  assert (E1 : cs1 = flat_map (calls_at c h) (md_dev (a_midi s0)) ++ tl).
  { destruct St as (s' & E). unfold steps in St1. rewrite E in St1. injection St1 as _ E1. symmetry. exact E1. }
  assert (One : forall e, calls_at c h e = [] \/ exists p q, calls_at c h e = [DPitch (d_ops e) (d_num e) p q]).
  { intros e. unfold calls_at. destruct (d_midi e =? c); [apply h1|left; reflexivity]. }
  assert (Sh : forall j e, zget (md_dev (a_midi s0)) j = Some e -> d_ops e = VFm -> d_num e = j).
  { intros j e He Oe. destruct (ok_dev _ _ _ Hs He) as [[(S1 & S2 & S3) _] Hj]. destruct (Z_lt_dec j 6); [apply S1; lia|].
    destruct (Z_lt_dec j 10); [destruct S2 as [_ S2]; [lia|congruence]|]. destruct S3 as [_ S3]; [lia|congruence]. }
  assert (Sp : exists l1 l2, md_dev (a_midi s0) = l1 ++ d :: l2 /\ Z.of_nat (length l1) = n).
  { unfold dev_at in Hd. assert (Rn := zget_Some _ _ _ Hd). unfold zget in Hd. destruct (Z.ltb_spec n 0); [lia|].
    apply nth_error_split in Hd as (l1 & l2 & E & L). exists l1, l2. split; [exact E|lia]. }
  destruct Sp as (l1 & l2 & Ed & Ll).
  assert (OV : forall e, In e l1 \/ In e l2 -> Forall (off_call n) (calls_at c h e)).
  { intros e He. assert (X : d_ops e = VFm -> d_num e <> n).
    { intros Oe. destruct He as [He|He]; apply In_nth_error in He as [k Hk].
      - assert (Kl : (k < length l1)%nat) by (apply nth_error_Some; congruence).
        assert (Z : zget (md_dev (a_midi s0)) (Z.of_nat k) = Some e).
        { rewrite Ed. unfold zget. destruct (Z.ltb_spec (Z.of_nat k) 0); [lia|]. rewrite Nat2Z.id, nth_error_app1 by exact Kl. exact Hk. }
        rewrite (Sh _ _ Z Oe). lia.
      - assert (Z : zget (md_dev (a_midi s0)) (n + 1 + Z.of_nat k) = Some e).
        { rewrite Ed. unfold zget. destruct (Z.ltb_spec (n + 1 + Z.of_nat k) 0); [lia|]. rewrite nth_error_app2 by lia.
          replace (Z.to_nat (n + 1 + Z.of_nat k) - length l1)%nat with (Datatypes.S k) by lia. exact Hk. }
        rewrite (Sh _ _ Z Oe). lia. }
    destruct (One e) as [->|(p & q & ->)]; [constructor|]. constructor; [|constructor]. left. cbn. destruct (d_ops e); auto. }
  assert (NF : ~ In DFmInit cs1).
  { rewrite E1. intros X. apply in_app_or in X as [X|X].
    - apply in_flat_map in X as (e & _ & X). destruct (One e) as [E|(p & q & E)]; rewrite E in X; [destruct X|]. destruct X as [X|[]]. discriminate X.
    - rewrite Forall_forall in T. destruct (T _ X) as (a & b & k & e & E). discriminate E. }
  assert (V := played_view r Hr mem Hm n cs _ _ Hn P (boots_calls_ok _ _ _ B)).
  assert (V1 := perform_all_view r Hr _ n _ Hn _ _ _ _ _ Hdi Hg Hc1 NF Pa V).
  set (w0 := fold_left (cv_step r n) (skipn 4 cs) (cv0 r)) in *.
  assert (Raw : v_raw (cv_sv w0) = false) by exact (cv_raw_free_all r n _ (cv0 r) (history_not_raw _ _ _ B W) eq_refl).
  destruct V as (_ & _ & _ & (_ & _ & _ & V) & _). destruct (V Raw) as [VK VF].
  destruct V1 as (_ & _ & _ & (_ & _ & _ & V1) & _).
  assert (Ecs : cs1 = flat_map (calls_at c h) l1 ++ calls_at c h d ++ flat_map (calls_at c h) l2 ++ tl).
  { rewrite E1, Ed, flat_map_app. cbn [flat_map]. rewrite <- !app_assoc. reflexivity. }
  rewrite Ecs, !fold_left_app in V1.
  assert (F1 : Forall (off_call n) (flat_map (calls_at c h) l1)) by (apply Forall_flat_map, Forall_forall; intros e He; apply OV; left; exact He).
  assert (F2 : Forall (off_call n) (flat_map (calls_at c h) l2)) by (apply Forall_flat_map, Forall_forall; intros e He; apply OV; right; exact He).
  assert (F3 : Forall (off_call n) tl) by (eapply Forall_impl; [|exact T]; intros x X; right; exact X).
  set (w1 := fold_left (cv_step r n) (flat_map (calls_at c h) l1) w0) in *. assert (K1 : cv_sv w1 = cv_sv w0) by exact (cv_off_calls r n _ w0 F1).
  rewrite (cv_off_calls r n _ _ F3), (cv_off_calls r n _ _ F2) in V1.
  destruct (One d) as [E|(p & q & E)]; rewrite E in *.
  - cbn [fold_left] in V1. rewrite K1 in V1. destruct (V1 Raw) as [V2 V3]. split; [congruence|]. split; [congruence|]. intros p q X. discriminate X.
  - destruct (d_ops d) eqn:Oe.
    1:{ rewrite (Sh n d Hd Oe) in *. cbn [fold_left cv_step cv_sops cv_sv sv_step] in V1. rewrite Z.eqb_refl, K1 in V1. cbn [v_raw v_key v_frq] in V1.
        destruct (V1 Raw) as [V2 V3]. split; [congruence|]. split; [intros X; discriminate X|]. intros p' q' [= <- <-]. rewrite V3, octave_key. reflexivity. }
    all: cbn [fold_left cv_step cv_sops cv_sv] in V1; rewrite K1 in V1; destruct (V1 Raw) as [V2 V3]; (split; [congruence|]); (split; [intros X; discriminate X|]); intros p' q' X; discriminate X.
Qed.
End Sweep.

(** ** The bend range, changed while notes sound *)
Definition range_calls (m : mchan) (v : Z) (b : bool) (d : dev) : list dcall :=
  if d_bend d =? BEND_CENTRE then [] else [DPitch (d_ops d) (d_num d) (pc_pitch (eff (set_range m v b) d)) (pc_cents (eff (set_range m v b) d))].
Lemma range_one m v b : one_pitch (range_calls m v b).
Proof. intros e. unfold range_calls. destruct (_ =? _); [left; reflexivity|right; eauto]. Qed.
Lemma range_step c k v s m : midi_ok s -> is_chan c -> ch_at s c m -> k = 6 \/ k = 38 -> m_rpn m = 0 ->
  exists s' tl, midi_step (MCc c k v) s = WDone s' (flat_map (calls_at c (range_calls m v (k =? 6))) (md_dev s) ++ tl) /\
    Forall (fun x => exists a b k d, x = DChange a b k d) tl.
Proof.
  intros Hs Hc Hm Hk E0. destruct (ok_ch _ _ _ Hs Hm) as [Hmok _]. assert (Hn : m_num m = c) by apply Hmok.
  assert (E : cc_action c k v s = rpn_data_entry c v (k =? 6) s).
  { unfold cc_action. rewrite (wget_Some _ _ _ Hm), wbind_ret. destruct Hk as [-> | ->]; reflexivity. }
  cbn [midi_step]. unfold midi_cc. rewrite E. unfold rpn_data_entry. rewrite (wget_Some _ _ _ Hm), wbind_ret, E0. cbn [Z.eqb].
  change (0 =? 0) with true. cbv iota. rewrite (update_pb_range_eq _ _ _ _ m Hm Hn). unfold notify_change. unfold wbind at 1. cbn [md_cb md_set_ch].
  destruct (md_cb s); do 2 eexists; (split; [reflexivity|]); repeat constructor; eauto 6.
Qed.
Section Range.
Context (r : rom) (hw : hardware) (mem : list Z) (ops : list aop) (c k v : Z) (s0 s : app) (tr0 o : list event).
Context (H0 : history r hw mem ops s0 tr0) (H : history r hw mem (ops ++ [AMsg (MCc c k v)]) s (tr0 ++ o)).
Context (W : without raw_write ops) (Hk : k = 6 \/ k = 38) (Sel : range_selected (settings (map message ops) c) = true).

Lemma range_sweep : exists m, ch_at (a_midi s0) c m /\ agrees (settings (map message ops) c) m /\ m_fine m = tn_fine (tuned (map message ops)) c /\ is_chan c /\ MidiSpec.seven v /\
  midi_ok (a_midi s0) /\
  forall n d, 0 <= n < 6 -> dev_at (a_midi s0) n d ->
    key_state (tr0 ++ o) n = key_state tr0 n /\
    (calls_at c (range_calls m v (k =? 6)) d = [] -> chip_freq (tr0 ++ o) n = chip_freq tr0 n) /\
    (forall p q, calls_at c (range_calls m v (k =? 6)) d = [DPitch VFm n p q] -> chip_freq (tr0 ++ o) n = Some (fm_note r p q)).
Proof.
  destruct (history_last _ _ _ _ _ _ _ _ _ H0 H) as (Ho & _).
  destruct (history_played _ _ _ _ _ _ H0) as ((Hs & _ & _) & cs & B & _).
  assert (Hc : is_chan c) by apply Ho. assert (Hv : MidiSpec.seven v) by apply Ho.
  destruct (ok_ch_get _ _ Hs Hc) as (m & Hch & Hok). exists m.
  destruct (settings_boot _ _ _ B) as [_ S]. assert (A := S c m Hch). rewrite settings_messages in A.
  destruct (tune_boot _ _ _ B) as [_ (_ & T)]. destruct (T c m Hch) as [_ T2]. change (tuned (MCallback true :: map message ops)) with (tuned (map message ops)) in T2.
  assert (E0 : m_rpn m = 0).
  { destruct A as (_ & _ & _ & _ & _ & _ & A7 & A8 & A9). apply Z.eqb_eq. rewrite A7, rpn_zero by assumption. exact Sel. }
  destruct (range_step c k v (a_midi s0) m Hs Hc Hch Hk E0) as (s' & tl & E & F).
  repeat (split; [assumption|]). intros n d. apply (sweep r hw mem ops _ s0 s tr0 o H0 H W c _ tl (range_one m v (k =? 6)) F). exists s'. exact E.
Qed.

Theorem range_heard n d : without remapping ops -> without (is_cc 78) ops ->
  0 <= n < 6 -> dev_at (a_midi s0) n d -> d_on d = true -> d_midi d = c -> st_bend (settings (map message ops) c) <> 8192 ->
  let t := settings (map message (ops ++ [AMsg (MCc c k v)])) c in
  let y := 100 * d_pitch d + d_cents d + bend_cents (st_bend t) (100 * st_semis t + st_cents t) in
  let x := y + tn_fine (tuned (map message ops)) c in
  0 <= y < 25600 -> 0 <= x < 25600 ->
  key_state (tr0 ++ o) n = key_state tr0 n /\ chip_freq (tr0 ++ o) n = Some (fm_note r (x / 100) (x mod 100)).
Proof.
  intros W2 W3 Hn Hd Hon Hc Nb. cbv zeta.
  assert (Et : settings (map message (ops ++ [AMsg (MCc c k v)])) c = after_cc (settings (map message ops) c) k v).
  { rewrite map_app. unfold settings. cbn [map message]. rewrite fold_left_app. cbn [fold_left settings_after]. unfold at_channel. rewrite Z.eqb_refl. reflexivity. }
  rewrite Et. clear Et. set (t := settings (map message ops) c) in *.
  destruct range_sweep as (m & Hch & A & Fi & Cc & Hv & Hs & K). fold t in A. destruct (K n d Hn Hd) as (K1 & _ & K2). intros L1 L2. split; [exact K1|].
  destruct (history_played _ _ _ _ _ _ H0) as (_ & cs & B & _).
  assert (ND : no_dac d).
  { apply (no_dac_boot _ _ _ B) with (j := n) (d := d); [|exact Hd]. apply Forall_forall. intros x Hin. exact (plain_messages (is_cc 78) ops (proj1 (cc_plain 78)) (proj2 (cc_plain 78)) W3 x Hin). }
  assert (R : Forall (fun m => ~ remapping m) (MCallback true :: map message ops)).
  { apply Forall_forall. intros x Hin. exact (plain_messages remapping ops (proj1 remapping_plain) (proj2 remapping_plain) W2 x Hin). }
  assert (Db : d_bend d = st_bend t).
  { destruct (MidiCarryProofs.sounding_settings _ _ _ n d R B Hd Hon) as (_ & _ & _ & X); [rewrite Hc; exact Cc|]. rewrite Hc, settings_messages in X. exact X. }
  assert (Ops : d_ops d = VFm /\ d_num d = n).
  { destruct (ok_dev _ _ _ Hs Hd) as [[(S1 & _) _] _]. destruct (S1 ltac:(lia)) as [S2 [S3|[_ S3]]]; [auto|contradiction]. }
  destruct (ok_ch _ _ _ Hs Hch) as [Hok _]. destruct Hok as (_ & _ & _ & _ & Hb & R1 & R2 & _).
  destruct A as (_ & _ & _ & A4 & A5 & A6 & _).
  assert (Ec : calls_at c (range_calls m v (k =? 6)) d = [DPitch VFm n (pc_pitch (eff (set_range m v (k =? 6)) d)) (pc_cents (eff (set_range m v (k =? 6)) d))]).
  { unfold calls_at, range_calls. destruct Ops as [-> ->]. rewrite Hc, Z.eqb_refl, Db. destruct (Z.eqb_spec (st_bend t) BEND_CENTRE) as [X|]; [exfalso; apply Nb; exact X|reflexivity]. }
  rewrite (K2 _ _ Ec).
  assert (Hv' := s8_seven v Hv).
  assert (Q := eff_total (set_range m v (k =? 6)) d ltac:(rewrite Db, <- A4; exact Hb)).
  assert (Q1 : MidiSpec.seven (pc_pitch (m_range (set_range m v (k =? 6)))) /\ MidiSpec.seven (pc_cents (m_range (set_range m v (k =? 6)))) /\
    pc_pitch (m_range (set_range m v (k =? 6))) = st_semis (after_cc t k v) /\ pc_cents (m_range (set_range m v (k =? 6))) = st_cents (after_cc t k v) /\
    st_bend (after_cc t k v) = st_bend t).
  { unfold set_range, after_cc. rewrite Sel. destruct Hk as [-> | ->]; cbn; rewrite ?Hv'; auto. }
  destruct Q1 as (Q1 & Q2 & Q3 & Q4 & Q5). specialize (Q Q1 Q2). cbv zeta in Q. change (m_fine (set_range m v (k =? 6))) with (m_fine m) in Q.
  rewrite Q5 in *. rewrite Q3, Q4, Fi, Db in Q. destruct (Q L1 L2) as [-> ->]. reflexivity.
Qed.
(** Every key stays as it is; so does the pitch of the other MIDI channels, and of
    notes whose wheel rests in the middle. *)
Theorem range_keys n : 0 <= n < 6 -> key_state (tr0 ++ o) n = key_state tr0 n.
Proof.
  intros Hn. destruct range_sweep as (m & _ & _ & _ & _ & _ & Hs & K).
  destruct (zget_in_range (md_dev (a_midi s0)) n) as [d Hd]; [destruct Hs as [-> _]; lia|]. exact (proj1 (K n d Hn Hd)).
Qed.
Theorem range_others n d : 0 <= n < 6 -> dev_at (a_midi s0) n d -> d_midi d <> c -> chip_freq (tr0 ++ o) n = chip_freq tr0 n.
Proof.
  intros Hn Hd Hc. destruct range_sweep as (m & _ & _ & _ & _ & _ & _ & K). destruct (K n d Hn Hd) as (_ & K1 & _). apply K1.
  unfold calls_at. destruct (Z.eqb_spec (d_midi d) c); [contradiction|reflexivity].
Qed.
Theorem range_centred n d : without remapping ops -> 0 <= n < 6 -> dev_at (a_midi s0) n d -> d_on d = true -> d_midi d = c ->
  st_bend (settings (map message ops) c) = 8192 -> chip_freq (tr0 ++ o) n = chip_freq tr0 n.
Proof.
  intros W2 Hn Hd Hon Hc Eb. destruct range_sweep as (m & _ & _ & _ & Cc & _ & _ & K). destruct (K n d Hn Hd) as (_ & K1 & _). apply K1.
  destruct (history_played _ _ _ _ _ _ H0) as (_ & cs & B & _).
  assert (R : Forall (fun m => ~ remapping m) (MCallback true :: map message ops)).
  { apply Forall_forall. intros x Hin. exact (plain_messages remapping ops (proj1 remapping_plain) (proj2 remapping_plain) W2 x Hin). }
  destruct (MidiCarryProofs.sounding_settings _ _ _ n d R B Hd Hon) as (_ & _ & _ & X); [rewrite Hc; exact Cc|]. rewrite Hc, settings_messages, Eb in X.
  unfold calls_at, range_calls. rewrite X. destruct (d_midi d =? c); reflexivity.
Qed.
End Range.

(** ** Controllers that only leave a note for later *)
Lemma stored_quiet r hw mem ops c k v s0 tr0 s o :
  history r hw mem ops s0 tr0 -> history r hw mem (ops ++ [AMsg (MCc c k v)]) s (tr0 ++ o) -> stored_only (settings (map message ops) c) k ->
  forall e, In e o -> e = EvMidiChange 2 c k v.
Proof.
  intros H0 H Hk. destruct (history_last _ _ _ _ _ _ _ _ _ H0 H) as (Ho & cs1 & St & Pa).
  destruct (history_played _ _ _ _ _ _ H0) as ((Hs & _ & _) & cs & B & _).
  assert (Hc : is_chan c) by apply Ho. assert (Hv : MidiSpec.seven v) by apply Ho.
  destruct (ok_ch_get _ _ Hs Hc) as (m & Hch & Hok).
  destruct (settings_boot _ _ _ B) as [_ S]. assert (A := S c m Hch). rewrite settings_messages in A.
  destruct A as (_ & _ & _ & _ & _ & _ & A7 & A8 & A9). assert (Rz := rpn_zero _ A8 A9). rewrite <- A7 in Rz.
  unfold steps in St. cbn [midi_step] in St.
  destruct (midi_cc_result _ _ _ _ _ _ _ Hs Hc Hv Hch St) as (o' & R & E).
  assert (En : o' = []).
  { unfold stored_only in Hk. inversion R; subst; try reflexivity; exfalso.
    all: try (destruct Hk as [Hk|[Hk1 Hk2]]; [cbn [In] in Hk; lia|lia]).
    all: destruct Hk as [Hk|[Hk1 Hk2]]; [cbn [In] in *; lia|].
    all: try (rewrite Hk2 in Rz; apply Z.eqb_neq in Rz; contradiction).
    all: match goal with X : ~ In _ _ |- _ => apply X; cbn [In]; lia | _ => idtac end. }
  subst o'. cbn [Datatypes.app] in E. rewrite E in Pa. intros e He. destruct (md_cb (a_midi s)); cbn in Pa; injection Pa as _ <-; cbn in He; [|contradiction].
  destruct He as [He|[]]. symmetry. exact He.
Qed.
