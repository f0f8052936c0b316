(** The sound layers: which events each part produces, and the calls of midi.c
    as calls of synth.c and midi_psg.c. *)
From Verif Require Import Base BaseLemmas PitchModel PitchProofs SynthModel SynthSpec SynthProofs SynthMirrorProofs.
From Verif Require Import SramModel PsgModel MidiModel DevModel DevSpec.
From Verif Require PsgSpec PsgProofs PsgRunProofs SramSpec SramProofs MidiSpec MidiCarryProofs.

(** ** Events a computation may produce *)
Definition emits {S A} (P : event -> bool) (m : M S A) : Prop :=
  forall s a s' o, m s = Done a s' o -> Forall (fun e => P e = true) o.

Section Emits.
Context {S : Type} (P : event -> bool).
Lemma emits_ret {A} (a : A) : emits P (ret a : M S A).
Proof. intros s b s' o [= <- <- <-]. constructor. Qed.
Lemma emits_fail {A} f : emits P (fail f : M S A).
Proof. intros s b s' o [=]. Qed.
Lemma emits_get : emits P (get : M S S).
Proof. intros s b s' o [= <- <- <-]. constructor. Qed.
Lemma emits_gets {A} (f : S -> A) : emits P (gets f).
Proof. intros s b s' o [= <- <- <-]. constructor. Qed.
Lemma emits_put (x : S) : emits P (put x).
Proof. intros s b s' o [= <- <- <-]. constructor. Qed.
Lemma emits_modify (f : S -> S) : emits P (modify f).
Proof. intros s b s' o [= <- <- <-]. constructor. Qed.
Lemma emits_emit e : P e = true -> emits P (emit e : M S unit).
Proof. intros H s b s' o [= <- <- <-]. constructor; [exact H|constructor]. Qed.
Lemma emits_bind {A B} (m : M S A) (k : A -> M S B) : emits P m -> (forall a, emits P (k a)) -> emits P (bind m k).
Proof.
  intros Hm Hk s b s' o. unfold bind. destruct (m s) as [a s1 o1|f] eqn:E; [|discriminate].
  destruct (k a s1) as [c s2 o2|f] eqn:E2; [|discriminate]. intros [= <- <- <-].
  apply Forall_app. split; [exact (Hm _ _ _ _ E)|exact (Hk _ _ _ _ _ E2)].
Qed.
Lemma emits_when b (m : M S unit) : emits P m -> emits P (when b m).
Proof. intros H. destruct b; [exact H|apply emits_ret]. Qed.
Lemma emits_rd {A} (l : list A) i : emits P (rd l i : M S A).
Proof. unfold rd. destruct (zget l i); [apply emits_ret|apply emits_fail]. Qed.
Lemma emits_forM {X} (l : list X) (f : X -> M S unit) : (forall x, emits P (f x)) -> emits P (forM l f).
Proof. intros H. induction l as [|x t IH]; cbn; [apply emits_ret|]. apply emits_bind; auto. Qed.
Lemma emits_runM {X} (step : X -> M S unit) l : (forall x, emits P (step x)) -> emits P (runM step l).
Proof. intros H. induction l as [|x t IH]; cbn; [apply emits_ret|]. apply emits_bind; auto. Qed.
Lemma emits_lift {T A} (g : S -> T) (p : S -> T -> S) (m : M T A) : emits P m -> emits P (lift g p m).
Proof.
  intros H s a s' o. unfold lift. destruct (m (g s)) as [b t o1|f] eqn:E; [|discriminate]. intros [= <- <- <-]. exact (H _ _ _ _ E).
Qed.
End Emits.

Ltac emits_step :=
  first [ apply emits_ret | apply emits_fail | apply emits_get | apply emits_gets | apply emits_put | apply emits_modify
        | apply emits_emit; reflexivity | apply emits_rd | apply emits_when | apply emits_forM; intros ?
        | apply emits_bind; [|intros ?]
        | match goal with
          | |- emits _ (if ?b then _ else _) => destruct b
          | |- emits _ (match ?x with _ => _ end) => destruct x
          | |- emits _ (let x := _ in _) => cbv zeta
          end ].
Ltac emits_head m := match m with ?f _ => emits_head f | _ => unfold m end.
Ltac emits_go := repeat first [ emits_step | match goal with |- emits _ ?m => emits_head m end ].

Lemma synth_emits op : emits fm_event (synth_step op).
Proof. destruct op; cbn [synth_step]; emits_go. Qed.

Lemma on_chan_emits c m : (forall u up, emits psg_event (m u up)) -> emits psg_event (on_chan c m).
Proof.
  intros H s a s' o. unfold on_chan. destruct (zget (ps_chans s) c) as [ch|]; [|discriminate].
  destruct (m _ _ ch) as [x c' o'|] eqn:E; [|discriminate]. intros [= <- <- <-]. exact (H _ _ _ _ _ _ E).
Qed.
Lemma psg_emits pal envs op : emits psg_event (psg_step pal envs op).
Proof.
  destruct op; cbn [psg_step]; repeat first [ apply on_chan_emits; intros ? ? | emits_step | match goal with |- emits _ ?m => emits_head m end ].
Qed.

Lemma filter_all (P : event -> bool) o : Forall (fun e => P e = true) o -> filter P o = o.
Proof. induction 1 as [|e t H _ IH]; cbn; [reflexivity|]. rewrite H, IH. reflexivity. Qed.
Lemma filter_none (P Q : event -> bool) o : (forall e, P e = true -> Q e = false) -> Forall (fun e => P e = true) o -> filter Q o = [].
Proof. intros D. induction 1 as [|e t H _ IH]; cbn; [reflexivity|]. rewrite (D _ H). exact IH. Qed.
Lemma fm_not_psg e : fm_event e = true -> psg_event e = false.
Proof. destruct e; cbn; congruence. Qed.
Lemma psg_not_fm e : psg_event e = true -> fm_event e = false.
Proof. destruct e; cbn; congruence. Qed.

Lemma synth_run_app a b s s1 s2 o1 o2 : synth_run a s = Done tt s1 o1 -> synth_run b s1 = Done tt s2 o2 ->
  synth_run (a ++ b) s = Done tt s2 (o1 ++ o2).
Proof. unfold synth_run. intros H1 H2. rewrite runM_app. unfold bind. rewrite H1, H2. reflexivity. Qed.
Lemma psg_run_app pal envs a b s s1 s2 o1 o2 : psg_run pal envs a s = Done tt s1 o1 -> psg_run pal envs b s1 = Done tt s2 o2 ->
  psg_run pal envs (a ++ b) s = Done tt s2 (o1 ++ o2).
Proof. unfold psg_run. intros H1 H2. rewrite runM_app. unfold bind. rewrite H1, H2. reflexivity. Qed.

Section Dev.
Context (r : rom).

(** [m] takes [s] to [s'], calling synth.c with [so] and midi_psg.c with [po]. *)
Definition does (m : M devst unit) (s s' : devst) (so : list sop) (po : list pop) (o : list event) : Prop :=
  m s = Done tt s' o /\
  synth_run so (v_synth s) = Done tt (v_synth s') (filter fm_event o) /\
  psg_run (rom_pal r) (rom_envs r) po (v_psg s) = Done tt (v_psg s') (filter psg_event o).

Lemma does_seq m1 m2 s s1 s2 so1 so2 po1 po2 o1 o2 :
  does m1 s s1 so1 po1 o1 -> does m2 s1 s2 so2 po2 o2 -> does (m1 ;; m2) s s2 (so1 ++ so2) (po1 ++ po2) (o1 ++ o2).
Proof.
  intros (E1 & S1 & P1) (E2 & S2 & P2). split; [|split].
  - unfold bind. rewrite E1, E2. reflexivity.
  - rewrite filter_app. eapply synth_run_app; eassumption.
  - rewrite filter_app. eapply psg_run_app; eassumption.
Qed.
Lemma does_ret s : does (ret tt) s s [] [] [].
Proof. repeat split. Qed.
Lemma does_modify f s : v_synth (f s) = v_synth s -> v_psg (f s) = v_psg s -> does (modify f) s (f s) [] [] [].
Proof. intros H1 H2. split; [reflexivity|]. rewrite H1, H2. split; reflexivity. Qed.
Lemma does_emit e s : fm_event e = false -> psg_event e = false -> does (emit e) s s [] [] [e].
Proof. intros H1 H2. split; [reflexivity|]. cbn. rewrite H1, H2. split; reflexivity. Qed.
Lemma does_read {A} (m : M devst A) (k : A -> M devst unit) s a s' so po o : m s = Done a s [] -> does (k a) s s' so po o ->
  does (bind m k) s s' so po o.
Proof.
  intros H (E & R). split; [|exact R]. unfold bind. rewrite H, E. reflexivity.
Qed.
Lemma does_eq m m' s s' so so' po o : does m s s' so po o -> m' s = m s -> so = so' -> does m' s s' so' po o.
Proof. intros (E & R) H <-. split; [congruence|exact R]. Qed.

Lemma does_syn op s : synth_ok (v_synth s) -> sop_ok op ->
  exists o, does (syn op) s (v_set_synth s (post op (v_synth s))) [op] [] o.
Proof.
  intros Hs Ho. destruct (step_runs op (v_synth s) Hs Ho) as (o & E & _).
  exists o. split; [|split].
  - unfold syn, lift. rewrite E. reflexivity.
  - unfold synth_run. cbn [runM]. unfold bind. rewrite E. cbn. rewrite app_nil_r, filter_all; [reflexivity|].
    exact (synth_emits _ _ _ _ _ E).
  - cbn. rewrite (filter_none fm_event); [reflexivity|apply fm_not_psg|exact (synth_emits _ _ _ _ _ E)].
Qed.

Context (Hr : rom_ok r).

Definition psg_good (x : psg) : Prop := exists ue, PsgRunProofs.psg_inv (rom_envs r) ue x.
Definition dev_inv (s : devst) : Prop := sound_ok s /\ sr_present (v_sram s) = false.

Lemma does_ps op s : psg_good (v_psg s) -> PsgSpec.pop_ok op ->
  exists x o, does (ps r op) s (v_set_psg s x) [] [op] o /\ psg_good x.
Proof.
  intros [ue Hs] Ho. assert (He : PsgSpec.envs_ok (rom_envs r)) by apply Hr.
  destruct (PsgRunProofs.step_inv (rom_pal r) _ He ue op _ Hs Ho) as (ue' & x & o & _ & E & Hx).
  exists x, o. split; [|exists ue'; exact Hx]. split; [|split].
  - unfold ps, lift. rewrite E. reflexivity.
  - cbn. rewrite (filter_none psg_event); [reflexivity|apply psg_not_fm|exact (psg_emits _ _ _ _ _ _ _ E)].
  - unfold psg_run. cbn [runM]. unfold bind. rewrite E. cbn. rewrite app_nil_r, filter_all; [reflexivity|].
    exact (psg_emits _ _ _ _ _ _ _ E).
Qed.

(** ** Reading and changing midi_fm.c's channels *)
Lemma fm_get s n : length (v_fm s) = 6%nat -> 0 <= n < 6 -> zget (v_fm s) n = Some (fm_of s n).
Proof. intros HL Hn. apply zget_nth. rewrite HL. lia. Qed.
Lemma fm_at_eq s n : length (v_fm s) = 6%nat -> 0 <= n < 6 -> fm_at n s = Done (fm_of s n) s [].
Proof. intros HL Hn. unfold fm_at, bind, get, rd. rewrite (fm_get s n HL Hn). reflexivity. Qed.
Definition set_fm (s : devst) (n : Z) (x : mfch) : devst := v_set_fm s (zset (v_fm s) n x).
Lemma does_fm_mod s n f : length (v_fm s) = 6%nat -> 0 <= n < 6 ->
  does (fm_mod n f) s (set_fm s n (f (fm_of s n))) [] [] [].
Proof.
  intros HL Hn. eapply does_read; [apply fm_at_eq; assumption|]. apply does_modify; reflexivity.
Qed.
Lemma fm_of_set s n m x : length (v_fm s) = 6%nat -> 0 <= n < 6 -> 0 <= m ->
  fm_of (set_fm s n x) m = if m =? n then x else fm_of s m.
Proof. intros HL Hn Hm. unfold fm_of, set_fm. cbn [v_fm v_set_fm]. rewrite nth_zset by (rewrite ?HL; lia). reflexivity. Qed.
Lemma set_fm_len s n x : length (v_fm (set_fm s n x)) = length (v_fm s).
Proof. unfold set_fm. cbn. apply zset_length. Qed.
Lemma set_fm_get s n x m y : length (v_fm s) = 6%nat -> 0 <= n < 6 -> zget (v_fm s) m = Some y ->
  zget (v_fm (set_fm s n x)) m = Some (if n =? m then x else y).
Proof.
  intros HL Hn Hm. cbn. rewrite (zget_zset _ n m x _ (fm_get s n HL Hn)). destruct (n =? m); [reflexivity|exact Hm].
Qed.

Lemma freq_eq p ce s : freq_num r p ce s = Done (freq_of r p ce) s [].
Proof. unfold freq_num, freq_of. destruct (freq_num_total (rom_pal r) p ce) as (f & ->). reflexivity. Qed.
Lemma freq_of_range p ce : 0 <= freq_of r p ce < 65536.
Proof.
  unfold freq_of. destruct (freq_num_total (rom_pal r) p ce) as (f & E). rewrite E.
  unfold pitch_cents_to_freq_num in E. destruct (lookup_freq_num _ _ 0); [|discriminate].
  destruct (lookup_freq_num _ _ 1); [|discriminate]. injection E as <-. unfold u16. lia.
Qed.
Lemma octave_range p : is_u8 (pitch_to_octave p).
Proof. unfold is_u8, pitch_to_octave, u8. lia. Qed.
Lemma loudness_range v w : seven v -> seven w -> seven (loudness v w).
Proof. unfold seven, loudness. intros. nia. Qed.
Lemma effective_eq c v w : seven v -> seven w -> f_vol c = v -> f_vel c = w -> effective_volume c = loudness v w.
Proof.
  intros Hv Hw E1 E2. unfold effective_volume, loudness. rewrite E1, E2. rewrite Z.quot_div_nonneg by (unfold seven in *; nia).
  apply Z.mod_small. assert (H := loudness_range v w Hv Hw). unfold loudness, seven in H. lia.
Qed.
Lemma playable_eq p : fm_pitch_out_of_range p = negb (playable p).
Proof.
  unfold fm_pitch_out_of_range, playable, MIN_MIDI_PITCH, MAX_MIDI_PITCH. lia.
Qed.
Lemma pan_eq p : (if 95 <? p then 1 else if 31 <? p then 3 else 2) = pan_side p.
Proof. unfold pan_side. destruct (95 <? p) eqn:A, (31 <? p) eqn:B, (p <? 32) eqn:C, (p <? 96) eqn:D; try reflexivity; lia. Qed.

Lemma Forall_of_zget {A} (P : A -> Prop) l : (forall i x, zget l i = Some x -> P x) -> Forall P l.
Proof.
  intros H. apply Forall_forall. intros x Hx. apply In_nth_error in Hx as [n Hn]. apply (H (Z.of_nat n)).
  unfold zget. destruct (Z.ltb_spec (Z.of_nat n) 0); [lia|]. rewrite Nat2Z.id. exact Hn.
Qed.

(** Everything but the chips, after a call. *)
Definition frame (s : devst) (c : dcall) (s' : devst) : Prop :=
  length (v_fm s') = length (v_fm s) /\ length (v_user s') = length (v_user s) /\ length (v_sm s') = length (v_sm s) /\
  sr_present (v_sram s') = sr_present (v_sram s) /\ sr_mem (v_sram s') = sr_mem (v_sram s) /\
  (forall n x, zget (v_fm s) n = Some x -> zget (v_fm s') n = Some (fm_after r s c n x)) /\
  (forall n x, zget (v_user s) n = Some x -> zget (v_user s') n = Some (user_after s c n x)).

Lemma instrument_ok s p : sound_ok s -> seven p -> preset_ok (instrument r s p).
Proof.
  intros (_ & _ & _ & HU & HF & _) Hp. unfold instrument. destruct (zget (v_user s) p) as [[q|]|] eqn:E.
  - exact (Forall_zget _ _ _ _ HF E).
  - destruct Hr as (HL & HP & _). apply (Forall_zget _ _ p _ HP). apply zget_nth. rewrite HL. exact Hp.
  - destruct Hr as (HL & HP & _). apply (Forall_zget _ _ p _ HP). apply zget_nth. rewrite HL. exact Hp.
Qed.
Lemma current_eq s p : sound_ok s -> seven p -> current_preset r p s = Done (instrument r s p) s [].
Proof.
  intros (_ & _ & _ & HU & HF & _) Hp. unfold current_preset, instrument, bind, get, rd.
  destruct (zget_in_range (v_user s) p) as [u Hu]; [rewrite HU; exact Hp|]. rewrite Hu. cbn. destruct u as [q|]; [reflexivity|].
  destruct Hr as (HL & HP & _). rewrite (zget_nth (rom_presets r) p no_preset) by (rewrite HL; exact Hp). reflexivity.
Qed.
Lemma drum_eq p : seven p -> zget (rom_perc r) p = Some (drum r p).
Proof. intros Hp. destruct Hr as (_ & _ & HL & _). apply zget_nth. rewrite HL. exact Hp. Qed.
Lemma drum_ok p : seven p -> preset_ok (fst (drum r p)) /\ seven (snd (drum r p)).
Proof. intros Hp. destruct Hr as (_ & _ & HL & HP & _). exact (Forall_zget _ _ _ _ HP (drum_eq p Hp)). Qed.
Lemma preset0_ok : preset_ok (nth 0 (rom_presets r) no_preset).
Proof. destruct Hr as (HL & HP & _). apply (Forall_zget _ _ 0 _ HP). apply (zget_nth _ 0 no_preset). rewrite HL. lia. Qed.
Lemma channel_preset_ok s n : sound_ok s -> 0 <= n < 6 -> preset_ok (channel_preset s n).
Proof.
  intros (Hs & _) Hn. unfold channel_preset. rewrite (zget_chn _ Hs n Hn). assert (H := chn_ok _ Hs n Hn).
  unfold preset_ok, chan_ok in *. cbn. tauto.
Qed.
Lemma extract_eq s n : sound_ok s -> 0 <= n < 6 -> extract_preset n s = Done (channel_preset s n) s [].
Proof.
  intros (Hs & _) Hn. unfold extract_preset, lift, synth_extract_preset, channel_preset.
  unfold bind, get_chan, bind, get, rd. rewrite (zget_chn _ Hs n Hn). cbn. destruct s; reflexivity.
Qed.
Lemma fm_of_ok s n : sound_ok s -> 0 <= n < 6 -> fm_ok (fm_of s n).
Proof. intros (_ & HL & HF & _) Hn. exact (Forall_zget _ _ _ _ HF (fm_get s n HL Hn)). Qed.

(** ** Invariants *)
Lemma synth_calls_ok s c : sound_ok s -> MidiSpec.dcall_ok c -> Forall sop_ok (synth_calls r s c).
Proof.
  intros Hs Hc.
  assert (HP : forall n p ce, is_ch n -> sop_ok (SPitch n (pitch_to_octave p) (freq_of r p ce))).
  { intros n p ce Hn. cbn. auto using octave_range, freq_of_range. }
  destruct c as [v n p ce w|v n p|v n x|v n x|v n|v n x|v n p ce|n b|op|e|pr p|pr|n pr|pr|c n|d| | | | | |k c y w|c b];
    cbn [synth_calls MidiSpec.dcall_ok] in *;
    try (destruct v; cbn [MidiSpec.voice_ok] in Hc); try apply Forall_nil; try (apply Forall_cons; [|apply Forall_nil]).
  - destruct Hc as (Hn & Hp & Hce & Hw). destruct (playable p) eqn:Ep; [|constructor].
    assert (F := fm_of_ok s n Hs Hn). assert (Hv : seven (f_vol (fm_of s n))) by apply F.
    assert (P7 : seven p) by (unfold playable in Ep; unfold seven; lia).
    apply Forall_app. split.
    + destruct (f_perc _); repeat constructor; try apply Hn; apply drum_ok, P7.
    + apply Forall_cons; [|apply Forall_cons; [|apply Forall_cons; [|constructor]]].
      * split; [exact Hn|]. apply loudness_range; assumption.
      * apply HP, Hn.
      * exact Hn.
  - destruct Hc as (Hn & _ & _ & Hv). apply Forall_cons; [|apply Forall_cons; [|apply Forall_nil]].
    + split; [exact Hn|]. auto using octave_range, freq_of_range.
    + cbn. unfold is_op. unfold MidiSpec.seven in Hv. lia.
  - exact (proj1 Hc).
  - split; [exact (proj1 Hc)|]. apply loudness_range; [exact (proj2 Hc)|]. apply (fm_of_ok s n Hs (proj1 Hc)).
  - split; [exact (proj1 Hc)|]. apply instrument_ok; [exact Hs|exact (proj2 Hc)].
  - exact Hc.
  - split; [exact (proj1 Hc)|]. unfold pan_side, is_u8. destruct (_ <? _); [lia|]. destruct (_ <? _); lia.
  - apply HP. exact (proj1 Hc).
  - cbn. destruct Hc as (Hn & _). split; [exact Hn|]. auto using octave_range, freq_of_range.
  - exact Hc.
  - exact preset0_ok.
Qed.
Lemma psg_calls_ok c : MidiSpec.dcall_ok c -> Forall PsgSpec.pop_ok (psg_calls c).
Proof.
  intros Hc.
  destruct c as [v n p ce w|v n p|v n x|v n x|v n|v n x|v n p ce|n b|op|e|pr p|pr|n pr|pr|c n|d| | | | | |k c y w|c b];
    cbn [psg_calls MidiSpec.dcall_ok] in *;
    try (destruct v; cbn [MidiSpec.voice_ok] in Hc); try apply Forall_nil; (apply Forall_cons; [|apply Forall_nil]);
    cbn; unfold PsgSpec.is_psg, PsgSpec.seven; unfold MidiSpec.seven in *; tauto.
Qed.

Lemma fm_after_ok s c n x : MidiSpec.dcall_ok c -> fm_ok x -> fm_ok (fm_after r s c n x).
Proof.
  intros Hc Hx. destruct c as [v m p ce w|v m p|v m y|v m y|v m|v m y|v m p ce|m b|op|e|pr p|pr|m pr|pr|c m|d| | | | | |k c y w|c b];
    cbn [fm_after MidiSpec.dcall_ok] in *; try exact Hx; try (destruct v; try exact Hx).
  - destruct ((m =? n) && playable p) eqn:E; [|exact Hx]. apply andb_true_iff in E as [_ Ep].
    assert (P7 : seven p) by (unfold playable in Ep; unfold seven; lia).
    destruct Hx as (H1 & H2 & H3 & H4 & H5). unfold fm_ok. cbn. destruct Hc as (_ & Hp & Hce & Hw).
    split; [destruct (f_perc x); [destruct (drum_ok p P7) as [_ D]; unfold seven in D|]; lia|]. tauto.
  - destruct (m =? n); [|exact Hx]. unfold fm_ok in *. cbn. unfold seven, MidiSpec.seven in *. tauto.
  - destruct (m =? n); [|exact Hx]. unfold fm_ok in *. cbn. unfold seven, MidiSpec.seven in *. tauto.
  - destruct (m =? n); [|exact Hx]. unfold fm_ok in *. cbn. tauto.
  - destruct (m =? n); [|exact Hx]. unfold fm_ok in *. cbn. tauto.
  - unfold fm_ok in *. cbn. unfold seven. lia.
Qed.
Lemma user_after_ok s c n x : sound_ok s -> MidiSpec.dcall_ok c -> user_ok x -> user_ok (user_after s c n x).
Proof.
  intros Hs Hc Hx. destruct c; cbn [user_after MidiSpec.dcall_ok] in *; try exact Hx.
  - destruct (prog =? n); [|exact Hx]. apply Hc.
  - destruct (prog =? n); [|exact Hx]. exact I.
  - destruct (prog =? n); [|exact Hx]. apply channel_preset_ok; tauto.
  - exact I.
Qed.

Lemma frame_inv m s c s' so po o : dev_inv s -> MidiSpec.dcall_ok c -> frame s c s' -> Forall sop_ok so ->
  does m s s' so po o -> dev_inv s'.
Proof.
  intros [Hs Hp] Hc (L1 & L2 & L3 & E1 & E2 & F & U) Hso (_ & S & _).
  assert (Hs' := Hs). destruct Hs' as (S1 & S2 & S3 & S4 & S5 & S6 & S7).
  assert (HL : forall {A} (l l' : list A) i x, length l' = length l -> zget l' i = Some x -> exists y, zget l i = Some y).
  { intros A l l' i x HL G. apply zget_in_range. rewrite <- HL. exact (zget_Some _ _ _ G). }
  split; [|congruence]. split; [|split; [congruence|split; [|split; [congruence|split; [|split]]]]].
  - assert (X : exists s2 o2, synth_run so (v_synth s) = Done tt s2 o2 /\ synth_ok s2).
    { clear S. revert S1. generalize (v_synth s). induction Hso as [|op t Hop Ht IH]; intros x Hx.
      - exists x, []. split; [reflexivity|exact Hx].
      - destruct (step_runs op x Hx Hop) as (o1 & Eo & _). destruct (IH _ (post_ok op x Hx Hop)) as (s2 & o2 & E & H2).
        exists s2, (o1 ++ o2). split; [|exact H2]. unfold synth_run in *. cbn [runM]. unfold bind. rewrite Eo, E. reflexivity. }
    destruct X as (s2 & o2 & E & H2). rewrite S in E. injection E as <- <-. exact H2.
  - apply Forall_of_zget. intros i x G. destruct (HL _ _ _ _ _ L1 G) as [y Gy]. rewrite (F _ _ Gy) in G. injection G as <-.
    apply fm_after_ok; [exact Hc|]. exact (Forall_zget _ _ _ _ S3 Gy).
  - apply Forall_of_zget. intros i x G. destruct (HL _ _ _ _ _ L2 G) as [y Gy]. rewrite (U _ _ Gy) in G. injection G as <-.
    apply user_after_ok; [exact Hs|exact Hc|]. exact (Forall_zget _ _ _ _ S5 Gy).
  - destruct S6 as [A B]. split; rewrite E2; assumption.
  - congruence.
Qed.

(** ** midi_fm_note_on *)
(** Only the chips and the FM channels differ. *)
Definition same_but_fm (s s' : devst) : Prop :=
  v_user s' = v_user s /\ v_sram s' = v_sram s /\ v_sm s' = v_sm s /\ v_psg s' = v_psg s.
Lemma note_tail s n key ce v : synth_ok (v_synth s) -> length (v_fm s) = 6%nat -> 0 <= n < 6 -> seven v ->
  seven (f_vol (fm_of s n)) ->
  exists s' o, does (fm_mod n (fun c => f_set_vel c v) ;; c <- fm_at n ;; syn (SVolume n (effective_volume c)) ;;
    fm_mod n (fun c => f_set_pc c key ce) ;; set_synth_pitch r n ;; syn (SNoteOn n)) s s'
    [SVolume n (loudness (f_vol (fm_of s n)) v); SPitch n (pitch_to_octave key) (freq_of r key ce); SNoteOn n] [] o /\
  v_fm s' = zset (v_fm s) n (mkMf key ce (f_vol (fm_of s n)) v (f_pan (fm_of s n)) (f_perc (fm_of s n))) /\ same_but_fm s s'.
Proof.
  intros Hs HL Hn Hv Hvol. set (x := fm_of s n) in *.
  set (s1 := set_fm s n (f_set_vel x v)).
  assert (X1 : fm_of s1 n = f_set_vel x v) by (unfold s1; rewrite fm_of_set, Z.eqb_refl by (lia || assumption); reflexivity).
  assert (L1 : length (v_fm s1) = 6%nat) by (unfold s1; rewrite set_fm_len; exact HL).
  destruct (does_syn (SVolume n (loudness (f_vol x) v)) s1) as [o1 D1]; [exact Hs|split; [exact Hn|apply loudness_range; assumption]|].
  set (s2 := v_set_synth s1 (post (SVolume n (loudness (f_vol x) v)) (v_synth s1))) in *.
  assert (S2 : synth_ok (v_synth s2)) by (apply post_ok; [exact Hs|split; [exact Hn|apply loudness_range; assumption]]).
  assert (X2 : fm_of s2 n = f_set_vel x v) by exact X1.
  set (s3 := set_fm s2 n (f_set_pc (f_set_vel x v) key ce)).
  assert (X3 : fm_of s3 n = f_set_pc (f_set_vel x v) key ce) by (unfold s3; rewrite fm_of_set, Z.eqb_refl by (lia || assumption); reflexivity).
  assert (L3 : length (v_fm s3) = 6%nat) by (unfold s3; rewrite set_fm_len; exact L1).
  assert (O3 : sop_ok (SPitch n (pitch_to_octave key) (freq_of r key ce))) by (cbn; auto using octave_range, freq_of_range).
  destruct (does_syn (SPitch n (pitch_to_octave key) (freq_of r key ce)) s3 S2 O3) as [o3 D3].
  set (s4 := v_set_synth s3 (post (SPitch n (pitch_to_octave key) (freq_of r key ce)) (v_synth s3))) in *.
  assert (S4 : synth_ok (v_synth s4)) by (apply post_ok; [exact S2|exact O3]).
  destruct (does_syn (SNoteOn n) s4 S4 Hn) as [o4 D4].
  eexists. exists ([] ++ o1 ++ [] ++ o3 ++ o4). split; [|split].
  - apply (does_seq _ _ s s1 _ [] [SVolume n (loudness (f_vol x) v); SPitch n (pitch_to_octave key) (freq_of r key ce); SNoteOn n] [] []).
    + apply (does_fm_mod s n (fun c => f_set_vel c v)); assumption.
    + eapply does_read; [apply fm_at_eq; assumption|]. rewrite X1, (effective_eq _ (f_vol x) v); [|assumption..|reflexivity|reflexivity].
      apply (does_seq _ _ s1 s2 _ [_] [_; _] [] [] o1 _ D1).
      apply (does_seq _ _ s2 s3 _ [] [_; _] [] []).
      * unfold s3. rewrite <- X2. apply (does_fm_mod s2 n (fun c => f_set_pc c key ce)); assumption.
      * eapply (does_seq _ _ s3 s4 _ [_] [_] [] []); [|exact D4].
        unfold set_synth_pitch. eapply does_read; [apply fm_at_eq; assumption|]. rewrite X3.
        eapply does_read; [apply freq_eq|]. exact D3.
  - cbn. unfold s3, s2, s1, set_fm. cbn. rewrite zset_zset. reflexivity.
  - repeat split.
Qed.

(** ** All calls *)
Lemma does_silent {A} (m : M devst A) (k : A -> M devst unit) s a s1 s' so po o : m s = Done a s1 [] ->
  v_synth s1 = v_synth s -> v_psg s1 = v_psg s -> does (k a) s1 s' so po o -> does (bind m k) s s' so po o.
Proof.
  intros H E1 E2 (E & S & P). split; [unfold bind; rewrite H, E; reflexivity|]. rewrite <- E1, <- E2. split; assumption.
Qed.
Lemma frame_same s c s' : v_fm s' = v_fm s -> v_user s' = v_user s -> length (v_sm s') = length (v_sm s) ->
  sr_present (v_sram s') = sr_present (v_sram s) -> sr_mem (v_sram s') = sr_mem (v_sram s) ->
  (forall n x, fm_after r s c n x = x) -> (forall n x, user_after s c n x = x) -> frame s c s'.
Proof.
  intros E1 E2 E3 E4 E5 F U. unfold frame. rewrite E1, E2, E3, E4, E5. repeat split; auto.
  - intros n x H. rewrite F. exact H.
  - intros n x H. rewrite U. exact H.
Qed.
Lemma frame_fm s c s' n y : length (v_fm s) = 6%nat -> 0 <= n < 6 -> v_fm s' = zset (v_fm s) n y -> v_user s' = v_user s ->
  v_sm s' = v_sm s -> sr_present (v_sram s') = sr_present (v_sram s) -> sr_mem (v_sram s') = sr_mem (v_sram s) ->
  fm_after r s c n (fm_of s n) = y -> (forall m x, m <> n -> fm_after r s c m x = x) ->
  (forall n x, user_after s c n x = x) -> frame s c s'.
Proof.
  intros HL Hn E1 E2 E3 E4 E5 F1 F2 U. unfold frame. rewrite E1, E2, E3, E4, E5. repeat split; auto.
  - apply zset_length.
  - intros m x H. rewrite (zget_zset _ n m y _ (fm_get s n HL Hn)). destruct (Z.eqb_spec n m) as [->|Hne].
    + rewrite (fm_get s m HL Hn) in H. injection H as <-. rewrite F1. reflexivity.
    + rewrite F2 by congruence. exact H.
  - intros m x H. rewrite U. exact H.
Qed.

Lemma no_sram {A} (m : M sram A) (a : A) s : (forall x, sr_present x = false -> m x = Done a x []) -> sr_present (v_sram s) = false ->
  exists s1, on_sram m s = Done a s1 [] /\ v_synth s1 = v_synth s /\ v_psg s1 = v_psg s /\ v_fm s1 = v_fm s /\
    v_user s1 = v_user s /\ v_sm s1 = v_sm s /\ sr_present (v_sram s1) = false /\ sr_mem (v_sram s1) = sr_mem (v_sram s).
Proof.
  intros H Hp. eexists. split.
  - unfold on_sram, lift. rewrite H by exact Hp. reflexivity.
  - cbn. repeat split; [|exact Hp]. destruct (v_synth s); reflexivity.
Qed.
Lemma no_save n p x : sr_present x = false -> sram_save_preset n p x = Done tt x [].
Proof. intros H. unfold sram_save_preset, bind, gets, when. rewrite H. reflexivity. Qed.
Lemma no_clear n x : sr_present x = false -> sram_clear_preset n x = Done tt x [].
Proof. intros H. unfold sram_clear_preset, bind, gets, when. rewrite H. reflexivity. Qed.
Lemma no_load x : sr_present x = false -> sram_load_presets x = Done (repeat None 128) x [].
Proof. intros H. unfold sram_load_presets, bind, gets. rewrite H. reflexivity. Qed.

Lemma tx_does l : forall s, exists o, does (tx_bytes l) s s [] [] o /\ sent o = l.
Proof.
  induction l as [|b t IH]; intros s.
  - exists []. split; [apply does_ret|reflexivity].
  - destruct (IH s) as (o & D & E). exists ([EvTx b] ++ o). split.
    + unfold tx_bytes. cbn [forM]. apply (does_seq _ _ s s s [] [] [] []); [apply does_emit; reflexivity|exact D].
    + cbn. f_equal. exact E.
Qed.
Lemma store_does s n p : dev_inv s -> seven n -> exists s', does (midi_fm_store_preset n p) s s' [] [] [] /\
  v_user s' = zset (v_user s) n (Some p) /\ v_fm s' = v_fm s /\ v_sm s' = v_sm s /\ v_psg s' = v_psg s /\
  sr_present (v_sram s') = sr_present (v_sram s) /\ sr_mem (v_sram s') = sr_mem (v_sram s).
Proof.
  intros [Hs Hp] Hn. destruct Hs as (_ & _ & _ & HU & _). destruct (zget_in_range (v_user s) n) as [u Hu]; [rewrite HU; exact Hn|].
  destruct (no_sram (sram_save_preset n p) tt (v_set_user s (zset (v_user s) n (Some p))) (no_save n p) Hp)
    as (s1 & E & A & B & C & D & F & G & H).
  exists s1. cbn in *. split; [|repeat split; congruence].
  unfold midi_fm_store_preset. eapply does_read; [reflexivity|]. eapply does_read; [unfold rd; rewrite Hu; reflexivity|].
  eapply does_silent; [reflexivity|reflexivity|reflexivity|].
  split; [exact E|]. cbn. rewrite A, B. split; reflexivity.
Qed.
Lemma clear_does s n : dev_inv s -> seven n -> exists s', does (midi_fm_clear_preset n) s s' [] [] [] /\
  v_user s' = zset (v_user s) n None /\ v_fm s' = v_fm s /\ v_sm s' = v_sm s /\ v_psg s' = v_psg s /\
  sr_present (v_sram s') = sr_present (v_sram s) /\ sr_mem (v_sram s') = sr_mem (v_sram s).
Proof.
  intros [Hs Hp] Hn. destruct Hs as (_ & _ & _ & HU & _). destruct (zget_in_range (v_user s) n) as [u Hu]; [rewrite HU; exact Hn|].
  destruct (no_sram (sram_clear_preset n) tt (v_set_user s (zset (v_user s) n None)) (no_clear n) Hp)
    as (s1 & E & A & B & C & D & F & G & H).
  exists s1. cbn in *. split; [|repeat split; congruence].
  unfold midi_fm_clear_preset. eapply does_read; [reflexivity|]. eapply does_read; [unfold rd; rewrite Hu; reflexivity|].
  eapply does_silent; [reflexivity|reflexivity|reflexivity|].
  split; [exact E|]. cbn. rewrite A, B. split; reflexivity.
Qed.
Lemma frame_user s c s' n y : length (v_user s) = 128%nat -> seven n -> v_user s' = zset (v_user s) n y -> v_fm s' = v_fm s ->
  v_sm s' = v_sm s -> sr_present (v_sram s') = sr_present (v_sram s) -> sr_mem (v_sram s') = sr_mem (v_sram s) ->
  (forall m x, user_after s c m x = if n =? m then y else x) -> (forall m x, fm_after r s c m x = x) -> frame s c s'.
Proof.
  intros HL Hn E1 E2 E3 E4 E5 U F. unfold frame. rewrite E1, E2, E3, E4, E5. repeat split; auto.
  - apply zset_length.
  - intros m x H. rewrite F. exact H.
  - intros m x H. destruct (zget_in_range (v_user s) n) as [u Hu]; [rewrite HL; exact Hn|].
    rewrite (zget_zset _ n m y _ Hu), U. destruct (n =? m); [reflexivity|exact H].
Qed.

(** midi_fm.c:65-75 *)
Lemma reset_channels s : length (v_fm s) = 6%nat ->
  reset_fm_channels s = Done tt (v_set_fm s (map reset_fm_chan (v_fm s))) [].
Proof.
  intros HL. destruct s as [a fm b c d e]. cbn in HL. destruct fm as [|f0 [|f1 [|f2 [|f3 [|f4 [|f5 [|]]]]]]]; try discriminate.
  reflexivity.
Qed.

Lemma fm_note_on_does s n p ce v : sound_ok s -> 0 <= n < 6 -> 0 <= p < 256 -> 0 <= ce < 100 -> seven v ->
  exists s' o, does (midi_fm_note_on r n p ce v) s s' (synth_calls r s (DNoteOn VFm n p ce v)) [] o /\
  v_fm s' = zset (v_fm s) n (fm_after r s (DNoteOn VFm n p ce v) n (fm_of s n)) /\ same_but_fm s s'.
Proof.
  intros Hs Hn Hp Hce Hv. assert (Hf := fm_of_ok s n Hs Hn). destruct Hs as (S1 & S2 & Hs).
  unfold midi_fm_note_on. rewrite playable_eq. cbn [synth_calls fm_after]. rewrite Z.eqb_refl.
  destruct (playable p) eqn:Ep; cbn [negb andb].
  2:{ exists s, []. split; [apply does_ret|]. split; [|repeat split]. symmetry. apply zset_id, fm_get; assumption. }
  assert (Hp7 : seven p) by (unfold playable in Ep; unfold seven; lia).
  destruct (f_perc (fm_of s n)) eqn:Ef; cbn [app].
  - destruct (drum_ok p Hp7) as [P1 P2].
    assert (Ho : sop_ok (SPreset n (fst (drum r p)))) by (split; assumption).
    destruct (does_syn (SPreset n (fst (drum r p))) s S1 Ho) as [o1 D1].
    set (s1 := v_set_synth s (post (SPreset n (fst (drum r p))) (v_synth s))) in *.
    destruct (note_tail s1 n (snd (drum r p)) ce v) as (s' & o & D & F & B); [apply post_ok; assumption|exact S2|exact Hn|exact Hv|apply Hf|].
    exists s', (o1 ++ o). split; [|split; [|exact B]].
    + eapply does_read; [apply fm_at_eq; assumption|]. rewrite Ef.
      eapply does_eq; [eapply (does_seq _ _ _ _ _ [_] _ [] []); [exact D1|exact D]| |reflexivity].
      unfold bind. unfold rd at 1. rewrite drum_eq by exact Hp7. cbn [ret].
      destruct (syn (SPreset n (fst (drum r p))) s) as [[] sx ox|]; [|reflexivity].
      cbn [ret]. rewrite app_nil_r. cbn [app]. reflexivity.
    + rewrite F. change (fm_of s1 n) with (fm_of s n). change (v_fm s1) with (v_fm s). rewrite Ef. reflexivity.
  - destruct (note_tail s n p ce v S1 S2 Hn Hv) as (s' & o & D & F & B); [apply Hf|].
    exists s', o. split; [|split; [|exact B]].
    + eapply does_read; [apply fm_at_eq; assumption|]. rewrite Ef. eapply does_read; [reflexivity|]. exact D.
    + rewrite F, Ef. reflexivity.
Qed.

Lemma zget_repeat_in {A} (a : A) n i : 0 <= i < Z.of_nat n -> zget (repeat a n) i = Some a.
Proof.
  intros H. destruct (zget_in_range (repeat a n) i) as [y Hy]; [rewrite repeat_length; exact H|].
  rewrite Hy. f_equal. exact (repeat_spec _ _ _ (MidiCarryProofs.zget_In _ _ _ Hy)).
Qed.
Lemma does_dump s ctx cmd p : exists o, does (send_preset_dump ctx cmd p) s s [] [] o.
Proof. destruct (tx_does (0xF0 :: ([0x00; 0x22; 0x77; cmd] ++ preset_payload ctx p) ++ [0xF7]) s) as (o & D & _). exists o. exact D. Qed.

Lemma perform_frame det c s : dev_inv s -> psg_good (v_psg s) -> MidiSpec.dcall_ok c -> (c = DFmInit -> det = false) ->
  ~ beyond_samples c ->
  exists s' o, does (perform r det c) s s' (synth_calls r s c) (psg_calls c) o /\ frame s c s' /\ psg_good (v_psg s').
Proof.
  intros Hi Hg Hc Hdet Hb. assert (Hi' := Hi). destruct Hi' as [Hs Hp]. assert (Hs' := Hs).
  destruct Hs' as (S1 & S2 & S3 & S4 & S5 & S6 & S7).
  assert (Hso := synth_calls_ok s c Hs Hc). assert (Hpo := psg_calls_ok c Hc).
  assert (Onesyn : forall op s0, v_synth s0 = v_synth s -> sop_ok op -> exists o, does (syn op) s0 (v_set_synth s0 (post op (v_synth s))) [op] [] o).
  { intros op s0 E Ho. destruct (does_syn op s0) as [o D]; [rewrite E; exact S1|exact Ho|]. rewrite E in D. exists o. exact D. }
  assert (Syn : forall op, perform r det c = syn op -> synth_calls r s c = [op] -> psg_calls c = [] ->
    (forall n x, fm_after r s c n x = x) -> (forall n x, user_after s c n x = x) ->
    exists s' o, does (perform r det c) s s' (synth_calls r s c) (psg_calls c) o /\ frame s c s' /\ psg_good (v_psg s')).
  { intros op E1 E2 E3 F U. rewrite E1, E2, E3. rewrite E2 in Hso. destruct (Onesyn op s eq_refl (Forall_inv Hso)) as [o D].
    eexists. exists o. split; [exact D|]. split; [|exact Hg]. apply frame_same; auto. }
  assert (Ps : forall op, perform r det c = ps r op -> psg_calls c = [op] -> synth_calls r s c = [] ->
    (forall n x, fm_after r s c n x = x) -> (forall n x, user_after s c n x = x) ->
    exists s' o, does (perform r det c) s s' (synth_calls r s c) (psg_calls c) o /\ frame s c s' /\ psg_good (v_psg s')).
  { intros op E1 E2 E3 F U. rewrite E1, E2, E3. rewrite E2 in Hpo. destruct (does_ps op s Hg (Forall_inv Hpo)) as (x & o & D & G).
    eexists. exists o. split; [exact D|]. split; [|exact G]. apply frame_same; auto. }
  assert (Nop : perform r det c = ret tt -> psg_calls c = [] -> synth_calls r s c = [] ->
    (forall n x, fm_after r s c n x = x) -> (forall n x, user_after s c n x = x) ->
    exists s' o, does (perform r det c) s s' (synth_calls r s c) (psg_calls c) o /\ frame s c s' /\ psg_good (v_psg s')).
  { intros E1 E2 E3 F U. rewrite E1, E2, E3. exists s, []. split; [apply does_ret|]. split; [|exact Hg]. apply frame_same; auto. }
  assert (Emit : forall e, perform r det c = emit e -> fm_event e = false -> psg_event e = false -> psg_calls c = [] -> synth_calls r s c = [] ->
    (forall n x, fm_after r s c n x = x) -> (forall n x, user_after s c n x = x) ->
    exists s' o, does (perform r det c) s s' (synth_calls r s c) (psg_calls c) o /\ frame s c s' /\ psg_good (v_psg s')).
  { intros e E1 V1 V2 E2 E3 F U. rewrite E1, E2, E3. exists s, [e]. split; [apply does_emit; assumption|]. split; [|exact Hg]. apply frame_same; auto. }
  destruct c as [v n p ce vel|v n p|v n x|v n x|v n|v n x|v n p ce|n b|op|e|prog p|prog|n prog|prog|mc n|data| | | | | |k mc key v|mc b];
    try (destruct v).
  all: try (apply Nop; reflexivity).
  all: try (eapply Ps; reflexivity).
  all: try (eapply Syn; reflexivity).
  all: try (eapply Emit; reflexivity).
  all: clear Nop Ps Syn Emit.
  - (* DNoteOn VFm *) destruct Hc as (Hn & Hpp & Hce & Hv). cbn in Hn.
    destruct (fm_note_on_does s n p ce vel Hs Hn Hpp Hce Hv) as (s' & o & D & F & (B1 & B2 & B3 & B4)).
    exists s', o. split; [exact D|]. split; [|rewrite B4; exact Hg].
    eapply frame_fm; [exact S2|exact Hn|exact F|exact B1|exact B3|rewrite B2; reflexivity..|reflexivity| |reflexivity].
    intros m x Hne. cbn. rewrite (proj2 (Z.eqb_neq n m)) by congruence. reflexivity.
  - (* DNoteOn VSm *) destruct Hc as (Hn & Hpp & Hce & Hv). cbn in Hn.
    cbn [synth_calls] in Hso. assert (O1 := Forall_inv Hso). assert (O2 := Forall_inv (Forall_inv_tail Hso)).
    destruct (zget_in_range (v_sm s) n) as [y Hy]; [rewrite S7; exact Hn|].
    set (s1 := v_set_sm s (zset (v_sm s) n (p, ce))).
    destruct (Onesyn _ s1 eq_refl O1) as [o1 D1]. set (s2 := v_set_synth s1 _) in D1.
    destruct (does_syn _ s2 (post_ok _ _ S1 O1) O2) as [o2 D2].
    eexists. exists (o1 ++ o2). split; [|split].
    + unfold perform, midi_fm_sm_note_on. eapply (does_seq _ _ s s2 _ [_] [_] [] []); [|exact D2].
      unfold midi_fm_sm_pitch. eapply does_read; [reflexivity|]. eapply does_read; [unfold rd; rewrite Hy; reflexivity|].
      eapply does_silent; [reflexivity|reflexivity|reflexivity|]. eapply does_read; [apply freq_eq|]. exact D1.
    + apply frame_same; try reflexivity. cbn. apply zset_length.
    + exact Hg.
  - (* DNoteOn VDac *) cbn [perform]. unfold midi_dac_note_on. destruct Hc as (Hn & Hpp & _).
    destruct (zget_in_range (rom_pcm r) p) as [y Hy].
    { destruct Hr as (_ & _ & _ & _ & _ & HL). rewrite HL. split; [lia|]. apply Z.nle_gt. intros H. apply Hb. do 4 eexists. split; [reflexivity|exact H]. }
    rewrite Hy. destruct y as [smp|].
    + exists s, [EvPcmStart smp]. split; [apply does_emit; reflexivity|]. split; [|exact Hg]. apply frame_same; reflexivity.
    + exists s, []. split; [apply does_ret|]. split; [|exact Hg]. apply frame_same; reflexivity.
  - (* DVolume VFm *) destruct Hc as (Hn & Hv). cbn in Hn. assert (Hf := fm_of_ok s n Hs Hn). destruct Hf as (_ & _ & F1 & F2 & _).
    set (s1 := set_fm s n (f_set_vol (fm_of s n) x)).
    assert (X1 : fm_of s1 n = f_set_vol (fm_of s n) x) by (unfold s1; rewrite fm_of_set, Z.eqb_refl by (lia || assumption); reflexivity).
    destruct (Onesyn (SVolume n (loudness x (f_vel (fm_of s n)))) s1 eq_refl (Forall_inv Hso)) as [o D].
    eexists. exists ([] ++ o). split; [|split].
    + unfold perform, midi_fm_channel_volume. cbn [synth_calls psg_calls].
      eapply (does_seq _ _ s s1 _ [] [_] [] []); [apply (does_fm_mod s n (fun c => f_set_vol c x)); assumption|].
      eapply does_read; [apply fm_at_eq; [unfold s1; rewrite set_fm_len|]; assumption|].
      rewrite X1, (effective_eq _ x (f_vel (fm_of s n))); [exact D|assumption..|reflexivity|reflexivity].
    + eapply (frame_fm _ _ _ n (f_set_vol (fm_of s n) x)); try reflexivity; try assumption.
      * cbn. rewrite Z.eqb_refl. reflexivity.
      * intros m y Hne. cbn. rewrite (proj2 (Z.eqb_neq n m)) by congruence. reflexivity.
    + exact Hg.
  - (* DProgram VFm *) destruct Hc as (Hn & Hv). destruct (Onesyn _ s eq_refl (Forall_inv Hso)) as [o D].
    eexists. exists o. split; [|split].
    + unfold perform, midi_fm_program. eapply does_read; [apply current_eq; assumption|]. exact D.
    + apply frame_same; reflexivity.
    + exact Hg.
  - (* DPan VFm *) destruct Hc as (Hn & Hv). cbn in Hn.
    set (s1 := set_fm s n (f_set_pan (fm_of s n) x)).
    assert (X1 : fm_of s1 n = f_set_pan (fm_of s n) x) by (unfold s1; rewrite fm_of_set, Z.eqb_refl by (lia || assumption); reflexivity).
    destruct (Onesyn (SStereo n (pan_side x)) s1 eq_refl (Forall_inv Hso)) as [o D].
    eexists. exists ([] ++ o). split; [|split].
    + unfold perform, midi_fm_pan. cbn [synth_calls psg_calls].
      eapply (does_seq _ _ s s1 _ [] [_] [] []); [apply (does_fm_mod s n (fun c => f_set_pan c x)); assumption|].
      unfold update_pan. eapply does_read; [apply fm_at_eq; [unfold s1; rewrite set_fm_len|]; assumption|].
      rewrite X1. change (f_pan (f_set_pan (fm_of s n) x)) with x. rewrite pan_eq. exact D.
    + eapply (frame_fm _ _ _ n (f_set_pan (fm_of s n) x)); try reflexivity; try assumption.
      * cbn. rewrite Z.eqb_refl. reflexivity.
      * intros m y Hne. cbn. rewrite (proj2 (Z.eqb_neq n m)) by congruence. reflexivity.
    + exact Hg.
  - (* DPitch VFm *) destruct Hc as (Hn & Hpp & Hce). cbn in Hn.
    set (s1 := set_fm s n (f_set_pc (fm_of s n) p ce)).
    assert (X1 : fm_of s1 n = f_set_pc (fm_of s n) p ce) by (unfold s1; rewrite fm_of_set, Z.eqb_refl by (lia || assumption); reflexivity).
    destruct (Onesyn _ s1 eq_refl (Forall_inv Hso)) as [o D].
    eexists. exists ([] ++ o). split; [|split].
    + unfold perform, midi_fm_pitch. cbn [synth_calls psg_calls].
      eapply (does_seq _ _ s s1 _ [] [_] [] []); [apply (does_fm_mod s n (fun c => f_set_pc c p ce)); assumption|].
      unfold set_synth_pitch. eapply does_read; [apply fm_at_eq; [unfold s1; rewrite set_fm_len|]; assumption|].
      rewrite X1. cbn [f_pitch f_cents f_set_pc]. eapply does_read; [apply freq_eq|]. exact D.
    + eapply (frame_fm _ _ _ n (f_set_pc (fm_of s n) p ce)); try reflexivity; try assumption.
      * cbn. rewrite Z.eqb_refl. reflexivity.
      * intros m y Hne. cbn. rewrite (proj2 (Z.eqb_neq n m)) by congruence. reflexivity.
    + exact Hg.
  - (* DPitch VSm *) destruct Hc as (Hn & Hpp & Hce). cbn in Hn.
    destruct (zget_in_range (v_sm s) n) as [y Hy]; [rewrite S7; exact Hn|].
    set (s1 := v_set_sm s (zset (v_sm s) n (p, ce))).
    destruct (Onesyn _ s1 eq_refl (Forall_inv Hso)) as [o1 D1].
    eexists. exists o1. split; [|split].
    + unfold perform, midi_fm_sm_pitch. eapply does_read; [reflexivity|]. eapply does_read; [unfold rd; rewrite Hy; reflexivity|].
      eapply does_silent; [reflexivity|reflexivity|reflexivity|]. eapply does_read; [apply freq_eq|]. exact D1.
    + apply frame_same; try reflexivity. cbn. apply zset_length.
    + exact Hg.
  - (* DPerc *) cbn in Hc. eexists. exists []. split; [|split].
    + unfold perform, midi_fm_percussive. apply (does_fm_mod s n (fun c => f_set_perc c b)); assumption.
    + eapply (frame_fm _ _ _ n (f_set_perc (fm_of s n) b)); try reflexivity; try assumption.
      * cbn. rewrite Z.eqb_refl. reflexivity.
      * intros m y Hne. cbn. rewrite (proj2 (Z.eqb_neq n m)) by congruence. reflexivity.
    + exact Hg.
  - (* DStore *) destruct Hc as [Hn Hq]. destruct (store_does s prog p Hi Hn) as (s' & D & U & F & V & G & A & B).
    exists s', []. split; [exact D|]. split; [|rewrite G; exact Hg].
    eapply (frame_user _ _ _ prog); eauto; reflexivity.
  - (* DClear *) destruct (clear_does s prog Hi Hc) as (s' & D & U & F & V & G & A & B).
    exists s', []. split; [exact D|]. split; [|rewrite G; exact Hg].
    eapply (frame_user _ _ _ prog); eauto; reflexivity.
  - (* DStoreFrom *) destruct Hc as [Hn Hq]. destruct (store_does s prog (channel_preset s n) Hi Hq) as (s' & D & U & F & V & G & A & B).
    exists s', []. split; [|split; [|rewrite G; exact Hg]].
    + unfold perform, midi_fm_store_preset_from_channel. eapply does_read; [apply extract_eq; assumption|]. exact D.
    + eapply (frame_user _ _ _ prog); eauto; reflexivity.
  - (* DDumpPreset *) cbn in Hc. destruct (does_dump s prog 0x0E (instrument r s prog)) as [o D].
    exists s, o. split; [|split; [apply frame_same; reflexivity|exact Hg]].
    unfold perform, dump_preset. rewrite (proj2 (Z.leb_gt 128 prog)) by apply Hc.
    eapply does_read; [apply current_eq; assumption|]. exact D.
  - (* DDumpChan *) destruct Hc as [Hmc Hn]. destruct (does_dump s mc 0x10 (channel_preset s n)) as [o D].
    exists s, o. split; [|split; [apply frame_same; reflexivity|exact Hg]].
    unfold perform, dump_chan. eapply does_read; [apply extract_eq; assumption|]. exact D.
  - (* DTx *) destruct (tx_does (0xF0 :: data ++ [0xF7]) s) as (o & D & _).
    exists s, o. split; [exact D|]. split; [apply frame_same; reflexivity|exact Hg].
  - (* DFmInit *) cbn [perform]. rewrite (Hdet eq_refl).
    eexists. exists []. split; [|split].
    + split; [reflexivity|]. cbn. split; [destruct (v_synth s)|]; reflexivity.
    + apply frame_same; try reflexivity. cbn. symmetry. exact Hp.
    + exact Hg.
  - (* DFmReset *) set (s0 := v_set_user s (repeat None 128)).
    assert (E0 := reset_channels s0 S2). set (s1 := v_set_fm s0 _) in E0.
    destruct (no_sram sram_load_presets (repeat None 128) s1 no_load Hp) as (s2 & E & A & B & C & D & F & G & H).
    set (s3 := v_set_user s2 (repeat None 128)).
    destruct (Onesyn _ s3 A (Forall_inv Hso)) as [o Do].
    eexists. exists o. split; [|split].
    + unfold perform, midi_fm_reset.
      eapply (does_silent _ _ s tt s0); [reflexivity|reflexivity|reflexivity|].
      eapply (does_silent _ _ s0 tt s1); [exact E0|reflexivity|reflexivity|].
      eapply (does_silent _ _ s1 _ s2); [exact E|exact A|exact B|].
      eapply (does_silent _ _ s2 tt s3); [reflexivity|reflexivity|reflexivity|].
      eapply does_read; [|exact Do]. unfold rd. replace (zget (rom_presets r) 0) with (Some (nth 0 (rom_presets r) no_preset)); [reflexivity|].
      symmetry. apply (zget_nth (rom_presets r) 0). destruct Hr as (HL & _). rewrite HL. lia.
    + cbn. unfold s3, frame. cbn. rewrite C, F, G, H. unfold s1. cbn. rewrite map_length, S4. repeat split; auto.
      * intros m x Hm. exact (SramProofs.zget_map' reset_fm_chan _ _ _ Hm).
      * intros m x Hm. change (zget (repeat (@None preset) 128) m = Some None). apply zget_repeat_in. assert (R := zget_Some _ _ _ Hm). rewrite S4 in R. exact R.
    + cbn. rewrite B. exact Hg.
  - (* DSmReset *) eexists. exists []. split; [apply does_modify; reflexivity|]. split; [|exact Hg].
    apply frame_same; try reflexivity. cbn. symmetry. exact S7.
Qed.

Theorem perform_does det c s : dev_inv s -> psg_good (v_psg s) -> MidiSpec.dcall_ok c -> (c = DFmInit -> det = false) ->
  ~ beyond_samples c ->
  exists s' o, does (perform r det c) s s' (synth_calls r s c) (psg_calls c) o /\ frame s c s' /\ dev_inv s' /\ psg_good (v_psg s').
Proof.
  intros Hi Hg Hc Hd Hb. destruct (perform_frame det c s Hi Hg Hc Hd Hb) as (s' & o & D & F & G).
  exists s', o. split; [exact D|]. split; [exact F|]. split; [|exact G].
  eapply frame_inv; [exact Hi|exact Hc|exact F|apply synth_calls_ok; [apply Hi|exact Hc]|exact D].
Qed.
Theorem perform_beyond det c s : beyond_samples c -> perform r det c s = Fault F_pcm.
Proof.
  intros (n & p & ce & v & -> & H). cbn [perform]. unfold midi_dac_note_on.
  replace (zget (rom_pcm r) p) with (@None (option Z)); [reflexivity|]. symmetry. apply zget_None.
  destruct Hr as (_ & _ & _ & _ & _ & HL). rewrite HL. lia.
Qed.

(** ** The events that reach neither chip *)
Lemma filter_other_none {A} (m : M devst A) s a s' o : emits (fun e => fm_event e || psg_event e) m -> m s = Done a s' o ->
  filter other_event o = [].
Proof.
  intros H E. assert (F := H _ _ _ _ E). clear -F. induction F as [|e t He _ IH]; [reflexivity|].
  cbn [filter]. unfold other_event at 1. rewrite He. exact IH.
Qed.
Lemma syn_emits op : emits (fun e => fm_event e || psg_event e) (syn op).
Proof.
  apply emits_lift. intros s a s' o E. eapply Forall_impl; [|exact (synth_emits _ _ _ _ _ E)]. intros e H. cbn beta in *. rewrite H. reflexivity.
Qed.
Lemma ps_emits op : emits (fun e => fm_event e || psg_event e) (ps r op).
Proof.
  apply emits_lift. intros s a s' o E. eapply Forall_impl; [|exact (psg_emits _ _ _ _ _ _ _ E)]. intros e H. cbn beta in *.
  rewrite H. apply orb_true_r.
Qed.
Lemma extract_emits n : emits (fun e => fm_event e || psg_event e) (extract_preset n).
Proof. apply emits_lift. emits_go. Qed.
Lemma tx_eq l s : tx_bytes l s = Done tt s (map EvTx l).
Proof.
  unfold tx_bytes. induction l as [|b t IH]; [reflexivity|]. cbn [forM]. unfold bind. cbn [emit]. rewrite IH. reflexivity.
Qed.
Lemma tx_others l s a s' o : tx_bytes l s = Done a s' o -> filter other_event o = map EvTx l.
Proof.
  rewrite tx_eq. intros [= _ _ <-]. induction l as [|b t IH]; [reflexivity|]. cbn. f_equal. exact IH.
Qed.
Theorem perform_others det c s s' o : dev_inv s -> MidiSpec.dcall_ok c ->
  perform r det c s = Done tt s' o -> (c = DFmInit -> det = false) -> filter other_event o = other_by r s c.
Proof.
  intros Hi Hc E Hd. assert (Hi' := Hi). destruct Hi' as [Hs Hp].
  destruct c as [v n p ce vel|v n p|v n x|v n x|v n|v n x|v n p ce|n b|op|e|prog p|prog|n prog|prog|mc n|data| | | | | |k mc key v|mc b];
    try (destruct v); cbn [perform] in E.
  all: try (injection E as <- <-; reflexivity).
  all: try (eapply filter_other_none; [|exact E]; apply ps_emits).
  all: try (eapply filter_other_none; [|exact E]; apply syn_emits).
  all: try (eapply filter_other_none; [|exact E]; repeat first [apply syn_emits | apply ps_emits | emits_step | match goal with |- emits _ ?m => emits_head m end ]; fail).
  - (* DAC *) unfold midi_dac_note_on in E. cbn [other_by]. destruct (zget (rom_pcm r) p) as [[smp|]|]; [| |discriminate]; injection E as <- <-; reflexivity.
  - (* DStore *) destruct (store_does s prog p Hi (proj1 Hc)) as (s1 & (E1 & _) & _). rewrite E1 in E. injection E as <- <-. reflexivity.
  - destruct (clear_does s prog Hi Hc) as (s1 & (E1 & _) & _). rewrite E1 in E. injection E as <- <-. reflexivity.
  - destruct Hc as [Hn Hq]. unfold midi_fm_store_preset_from_channel, bind in E. rewrite extract_eq in E by assumption.
    destruct (store_does s prog (channel_preset s n) Hi Hq) as (s1 & (E1 & _) & _). rewrite E1 in E. injection E as <- <-. reflexivity.
  - unfold dump_preset in E. cbn in Hc. rewrite (proj2 (Z.leb_gt 128 prog)) in E by apply Hc. unfold bind in E.
    rewrite current_eq in E by assumption. unfold send_preset_dump, midi_tx_send_sysex in E. cbn [app] in E.
    destruct (tx_bytes _ s) as [[] s1 o1|] eqn:E1; [|discriminate]. injection E as <- <-. exact (tx_others _ _ _ _ _ E1).
  - destruct Hc as [Hmc Hn]. unfold dump_chan, bind in E. rewrite extract_eq in E by assumption.
    unfold send_preset_dump, midi_tx_send_sysex in E. cbn [app] in E.
    destruct (tx_bytes _ s) as [[] s1 o1|] eqn:E1; [|discriminate]. injection E as <- <-. exact (tx_others _ _ _ _ _ E1).
  - unfold midi_tx_send_sysex in E. exact (tx_others _ _ _ _ _ E).
  - assert (E0 := reset_channels (v_set_user s (repeat None 128)) (proj1 (proj2 Hs))).
    destruct (no_sram sram_load_presets (repeat None 128) (v_set_fm (v_set_user s (repeat None 128)) (map reset_fm_chan (v_fm (v_set_user s (repeat None 128))))) no_load Hp) as (s2 & E2 & _).
    unfold midi_fm_reset in E. unfold bind at 1 in E. cbn [modify] in E. unfold bind at 1 in E. rewrite E0 in E.
    unfold bind at 1 in E. rewrite E2 in E.
    unfold bind at 1 in E. cbn [modify] in E.
    match type of E with match (match (match ?m with _ => _ end) with _ => _ end) with _ => _ end = _ => destruct m as [[] s3 o3|] eqn:E3; [|discriminate] end.
    injection E as <- <-. cbn [app].
    destruct (bind (rd (rom_presets r) 0) _ _) as [[] s4 o4|] eqn:E4 in E3; [|discriminate]. injection E3 as <- <-. cbn [app].
    eapply filter_other_none; [|exact E4]. apply emits_bind; [apply emits_rd|intros p; apply syn_emits].
Qed.
End Dev.
