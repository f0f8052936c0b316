(** Parameter notifications and the silencing effect of initialisation. *)
From Verif Require Import Base BaseLemmas SynthModel SynthSpec SynthProofs SynthMirrorProofs SynthClaimsProofs.

(** [nq m l]: whatever [m] does when it finishes, it leaves the callback
    registration alone and notifies exactly [l] (nothing when none is registered). *)
Definition nq {A} (m : M synth A) (l : list (Z * Z)) : Prop :=
  forall s a s' o, m s = Done a s' o -> s_cb s' = s_cb s /\ notified o = if s_cb s then l else [].

Lemma notified_app a b : notified (a ++ b) = notified a ++ notified b.
Proof. unfold notified. apply flat_map_app. Qed.

Lemma nq_bind {A B} (m : M synth A) (k : A -> M synth B) l1 l2 :
  nq m l1 -> (forall a, nq (k a) l2) -> nq (bind m k) (l1 ++ l2).
Proof.
  intros H1 H2 s b s' o. unfold bind. destruct (m s) as [a s1 o1|] eqn:E1; [|discriminate].
  destruct (k a s1) as [b2 s2 o2|] eqn:E2; [|discriminate]. intros E; injection E as <- <- <-.
  destruct (H1 _ _ _ _ E1) as [C1 N1]. destruct (H2 _ _ _ _ _ E2) as [C2 N2].
  split; [congruence|]. rewrite notified_app, N1, N2, C1. destruct (s_cb s); reflexivity.
Qed.
Lemma nq_bind0 {A B} (m : M synth A) (k : A -> M synth B) l :
  nq m [] -> (forall a, nq (k a) l) -> nq (bind m k) l.
Proof. apply (nq_bind m k [] l). Qed.
Lemma nq_ret {A} (a : A) : nq (ret a) [].
Proof. intros s b s' o E; injection E as <- <- <-. split; [reflexivity|destruct (s_cb s); reflexivity]. Qed.
Lemma nq_get : nq get [].
Proof. intros s b s' o E; injection E as <- <- <-. split; [reflexivity|destruct (s_cb s); reflexivity]. Qed.
Lemma nq_gets {A} (f : synth -> A) : nq (gets f) [].
Proof. intros s b s' o E; injection E as <- <- <-. split; [reflexivity|destruct (s_cb s); reflexivity]. Qed.
Lemma nq_rd {A} (l : list A) i : nq (rd l i) [].
Proof. unfold rd. destruct (zget l i); [apply nq_ret|intros s b s' o E; discriminate]. Qed.
Lemma nq_modify f : (forall s, s_cb (f s) = s_cb s) -> nq (modify f) [].
Proof. intros H s b s' o E; injection E as <- <- <-. split; [apply H|destruct (s_cb s); reflexivity]. Qed.
Lemma nq_emit e : (forall c k, e <> EvParam c k) -> nq (emit e) [].
Proof.
  intros H s b s' o E; injection E as <- <- <-. split; [reflexivity|].
  destruct e; cbn; try (destruct (s_cb s); reflexivity). destruct (H chan kind); reflexivity.
Qed.
Lemma nq_forM {X} (l : list X) (f : X -> M synth unit) : (forall x, nq (f x) []) -> nq (forM l f) [].
Proof. intros H; induction l as [|x t IH]; [apply nq_ret|]. apply nq_bind0; [apply H|intros _; exact IH]. Qed.
Lemma nq_param c k : nq (parameter_updated c k) [(c, k)].
Proof.
  intros s b s' o. unfold parameter_updated. destruct s as [x1 x2 x3 x4 x5 x6 [] x8]; cbn;
  intros E; injection E as <- <- <-; split; reflexivity.
Qed.

Ltac nq :=
  repeat first
    [ apply nq_param | apply nq_ret | apply nq_get | apply nq_gets | apply nq_rd
    | (apply nq_modify; reflexivity) | (apply nq_emit; discriminate)
    | apply nq_forM; intros ?
    | (apply nq_bind0; [|intros ?])
    | match goal with |- nq (when ?b _) _ => destruct b; cbn [when negb]
                    | |- nq (if ?b then _ else _) _ => destruct b
                    | |- nq (let _ := _ in _) _ => cbv zeta end ].

Lemma nq_write p r d : nq (write_reg_safe p r d) [].
Proof. unfold write_reg_safe, z80_get_and_request_bus, release_z80_bus. nq. Qed.
Lemma nq_wch c g d : nq (write_channel_reg c g d) [].
Proof. unfold write_channel_reg. cbv zeta. apply nq_write. Qed.
Lemma nq_wop c p g d : nq (write_operator_reg c p g d) [].
Proof. apply nq_wch. Qed.
Lemma nq_get_chan c : nq (get_chan c) []. Proof. unfold get_chan; nq. Qed.
Lemma nq_get_op c p : nq (get_operator c p) []. Proof. unfold get_operator; apply nq_bind0; [apply nq_get_chan|intros; nq]. Qed.
Lemma nq_mod_chan c f : nq (mod_chan c f) []. Proof. unfold mod_chan; apply nq_bind0; [apply nq_get_chan|intros; nq]. Qed.
Lemma nq_mod_op c p f : nq (mod_operator c p f) [].
Proof. unfold mod_operator; apply nq_bind0; [apply nq_get_op|intros; apply nq_mod_chan]. Qed.
Lemma nq_vatl c tl : nq (volume_adjusted_total_level c tl) [].
Proof. unfold volume_adjusted_total_level; nq. Qed.
Lemma nq_etl c p tl : nq (effective_total_level c p tl) [].
Proof. unfold effective_total_level; apply nq_bind0; [apply nq_get_chan|]. intros; destruct (is_output_operator _ _); [apply nq_vatl|nq]. Qed.

Ltac nqs := repeat first
  [ apply nq_write | apply nq_wch | apply nq_wop | apply nq_get_chan | apply nq_get_op | apply nq_mod_chan
  | apply nq_mod_op | apply nq_vatl | apply nq_etl | progress nq ].

Lemma nq_update c : nq (update_channel c) [].
Proof.
  unfold update_channel, write_algorithm_and_feedback, write_stereo_ams_fms, write_operator_multiple_and_detune,
    write_operator_rate_scaling_and_attack_rate, write_operator_amplitude_modulation_and_decay_rate,
    write_operator_sustain_rate, write_operator_release_rate_and_sustain_level, write_operator_total_level,
    write_operator_ssg_eg.
  nqs.
Qed.

Lemma nq_step op : (forall b, op <> SCallback b) ->
  forall s s' o, synth_step op s = Done tt s' o -> s_cb s' = s_cb s /\ notified o = if s_cb s then notify op s else [].
Proof.
  intros Hcb s s' o E.
  assert (Q : forall l, notify op s = l -> nq (synth_step op) l -> s_cb s' = s_cb s /\ notified o = if s_cb s then notify op s else []).
  { intros l El Hq. rewrite El. exact (Hq _ _ _ _ E). }
  destruct op; try (eapply Q; [reflexivity|]; cbn [synth_step];
    unfold synth_init, init_global, synth_enable_dac, write_dac_reg, write_special_mode_reg, synth_note_on, synth_note_off,
      write_global_lfo, synth_pitch, synth_volume, synth_stereo, synth_algorithm, synth_feedback, synth_ams, synth_fms,
      synth_operator_multiple, synth_operator_detune, synth_operator_rate_scaling,
      synth_operator_attack_rate, synth_operator_decay_rate, synth_operator_sustain_rate, synth_operator_sustain_level,
      synth_operator_amplitude_modulation, synth_operator_release_rate, synth_operator_ssg_eg, synth_enable_lfo,
      synth_global_lfo_frequency, synth_preset, synth_set_special_mode, synth_special_mode_pitch, synth_special_mode_volume,
      synth_direct_write_ym2612, write_octave_and_frequency,
      write_algorithm_and_feedback, write_stereo_ams_fms, write_operator_multiple_and_detune,
      write_operator_rate_scaling_and_attack_rate, write_operator_amplitude_modulation_and_decay_rate,
      write_operator_sustain_rate, write_operator_release_rate_and_sustain_level, write_operator_total_level,
      write_operator_ssg_eg;
    repeat first [apply nq_update | progress nqs]; fail).
  - (* total level: only when it changes *)
    cbn [synth_step] in E. unfold synth_operator_total_level in E. cbn [notify].
    assert (G : forall x, get_operator c o0 s = Done x s [] ->
      zget (s_chans s) c <> None /\ match zget (s_chans s) c with Some ch => zget (c_ops ch) o0 = Some x | None => False end).
    { intros x. unfold get_operator, get_chan, bind, get, rd. destruct (zget (s_chans s) c) as [ch|]; [|discriminate].
      cbn. destruct (zget (c_ops ch) o0); [|discriminate]. cbn. intros H; injection H as ->. split; [discriminate|reflexivity]. }
    assert (G0 : forall x s1 o1, get_operator c o0 s = Done x s1 o1 -> s1 = s /\ o1 = []).
    { intros x s1 o1. unfold get_operator, get_chan, bind, get, rd. destruct (zget (s_chans s) c) as [ch|]; [|discriminate].
      cbn. destruct (zget (c_ops ch) o0); [|discriminate]. cbn. intros H; injection H as <- <- <-. auto. }
    unfold bind at 1 in E. destruct (get_operator c o0 s) as [x s1 o1|] eqn:Eg; [|discriminate].
    destruct (G0 _ _ _ eq_refl) as [-> ->]. destruct (G _ eq_refl) as [Hn Hx].
    destruct (zget (s_chans s) c) as [ch|]; [|contradiction]. rewrite Hx. clear Q G G0 Hn Hx Eg.
    destruct (o_tl x =? v).
    + injection E as <- <-. split; [reflexivity|destruct (s_cb s); reflexivity].
    + assert (Hq : nq (bind (mod_operator c o0 (fun o => op_set_tl o v)) (fun _ =>
          bind (write_operator_total_level c o0) (fun _ => parameter_updated c 0))) [(c, 0)]).
      { unfold write_operator_total_level. nqs. }
      match type of E with match ?X with _ => _ end = _ => destruct X as [a1 s1 o1|] eqn:E1; [|discriminate] end.
      injection E as _ <- <-. exact (Hq _ _ _ _ E1).
  - destruct (Hcb b); reflexivity.
Qed.

Lemma c65_notify op s : synth_ok s -> sop_ok op -> (forall b, op <> SCallback b) ->
  exists s' o, synth_step op s = Done tt s' o /\ notified o = if s_cb s then notify op s else [].
Proof.
  intros Hs Ho Hcb. destruct (step_runs op s Hs Ho) as (o & E & _). exists (post op s), o.
  split; [exact E|]. apply (nq_step op Hcb _ _ _ E).
Qed.

(** ** Initialisation keys every channel off *)
Lemma kw_off c d k : is_ch c -> is_ch d ->
  kwstep c k (0, 0x28, key_on_off_reg_offset d) = if d =? c then Some false else k.
Proof.
  intros Hc Hd. unfold kwstep, key_step; cbn [fst snd].
  destruct (ch_cases d Hd) as [-> | [-> | [-> | [-> | [-> | ->]]]]];
  destruct (ch_cases c Hc) as [-> | [-> | [-> | [-> | [-> | ->]]]]]; reflexivity.
Qed.

Lemma kw_flush c s d k : is_ch d -> fold_left (kwstep c) (flush s (chankeys d)) k = k.
Proof.
  intros Hd. apply kw_free. intros w Hw. apply in_map_iff in Hw. destruct Hw as (x & <- & Hin). cbn.
  apply addr_not_28. exact (fkeys_ok (SPreset d (demo_preset 0)) s x ltac:(split; [exact Hd|unfold preset_ok; cbn; repeat constructor; cbn; lia]) Hin).
Qed.

Lemma kw_init p c : is_ch c -> forall l s w k, (forall d, In d l -> is_ch d) ->
  fold_left (kwstep c) (snd (fold_left (init_acc p) l (s, w))) k =
  if existsb (fun d => d =? c) l then Some false else fold_left (kwstep c) w k.
Proof.
  intros Hc. induction l as [|d t IH]; intros s w k Hl; [reflexivity|].
  cbn [fold_left existsb]. unfold init_acc at 2. cbn [fst snd]. rewrite IH by (intros; apply Hl; right; assumption).
  destruct (existsb _ t); [rewrite orb_true_r; reflexivity|]. rewrite orb_false_r.
  rewrite !fold_left_app. rewrite kw_flush by (apply Hl; left; reflexivity). cbn [fold_left].
  rewrite kw_off; auto. apply Hl; left; reflexivity.
Qed.

Lemma c12_init_silent s tr p : synth_ok s -> preset_ok p ->
  exists s' o, synth_init p s = Done tt s' o /\ forall c, is_ch c -> key_state (tr ++ o) c = Some false.
Proof.
  intros Hs Hp. destruct (step_runs (SInit p) s Hs Hp) as (o & E & W & _). exists (post (SInit p) s), o.
  split; [exact E|]. intros c Hc. rewrite key_state_app, W. cbn [writes].
  rewrite !fold_left_app.
  rewrite (kw_free c [_]).
  2:{ intros w [<-|[]]. cbn. lia. }
  rewrite kw_init; [|exact Hc|intros d Hd; cbn in Hd; unfold is_ch; intuition lia].
  replace (existsb _ _) with true; [reflexivity|]. symmetry.
  destruct (ch_cases c Hc) as [-> | [-> | [-> | [-> | [-> | ->]]]]]; reflexivity.
Qed.
