From Verif Require Import Base BaseLemmas PsgModel PsgSpec SynthModel SynthSpec MidiModel MidiSpec RxModel RxSpec.
From Verif Require Import DevModel DevSpec DevProofs AppModel AppSpec AppProofs AppToneProofs AppSoundProofs LibraryProofs SoundSpec SongSpec SongProofs SongNoteProofs SongPlayProofs SongReleaseProofs AppNoteProofs ChipProofs MidiHistProofs MidiEqProofs.
From Verif Require Import AppKeyProofs MachineSpec MachineProofs MachineRunProofs MachineWireProofs MachineNoteProofs AirProofs CommModel CommSpec HubModel HubSpec HubProofs HubNoteSpec.

Lemma read_up_history r hw mem n present evs i l s out : read_up r hw mem n present evs i l s out -> exists ops, history r hw mem ops (hb_app s) out /\ msgs ops = meanings [] l.
Proof. intros ((tr & H) & L & C & A & Q). exact (hub_all _ _ _ _ _ _ _ _ _ _ _ H L C A Q). Qed.

Theorem hub_silent r hw mem n present evs i l s out k : read_up r hw mem n present evs i l s out -> 0 <= k < 6 ->
  without raw_write (told l) -> without (is_cc 78) (told l) -> without (is_cc 65) (told l) -> without remapping (told l) ->
  MidiSpec.held (meanings [] l) = [] -> key_state out k = Some false.
Proof.
  intros H Hn W1 W2 W3 W4 Hh. destruct (read_up_history _ _ _ _ _ _ _ _ _ _ H) as (ops & Ho & M).
  apply (c31_silent r hw mem ops (hb_app s) out k Ho Hn); try (eapply without_told; eassumption). rewrite held_msgs, M. exact Hh.
Qed.
Theorem hub_held r hw mem n present evs i l s out k : read_up r hw mem n present evs i l s out -> 0 <= k < 6 ->
  without raw_write (told l) -> without (is_cc 78) (told l) -> without (is_cc 65) (told l) -> without remapping (told l) ->
  key_state out k = Some true -> exists d, dev_at (a_midi (hb_app s)) k d /\ d_on d = true /\ In (d_midi d, note_of d) (MidiSpec.held (meanings [] l)).
Proof.
  intros H Hn W1 W2 W3 W4 Hh. destruct (read_up_history _ _ _ _ _ _ _ _ _ _ H) as (ops & Ho & M).
  rewrite <- M, <- held_msgs. apply (held_at_chip r hw mem ops (hb_app s) out k Ho Hn); try assumption; eapply without_told; eassumption.
Qed.
Lemma hub_note r hw mem n present evs i l c p v s out : read_up r hw mem n present evs i (l ++ [NoteOn c p v]) s out -> without (is_cc 65) (told l) ->
  exists before s0 s1 tr0 o, history r hw mem before s0 tr0 /\ history r hw mem (before ++ [AMsg (MNoteOn c p v)]) s1 (tr0 ++ o) /\ msgs before = meanings [] l /\
    (forall n, key_state out n = key_state (tr0 ++ o) n) /\ (forall n, chip_freq out n = chip_freq (tr0 ++ o) n) /\ ym_regs out = ym_regs (tr0 ++ o).
Proof.
  intros H W. destruct (read_up_history _ _ _ _ _ _ _ _ _ _ H) as (ops & Ho & M). rewrite meanings_app in M. cbn in M.
  destruct (msgs_split _ _ _ M) as (before & tail & -> & B & T).
  destruct (hist_note _ _ _ _ _ _ _ _ _ _ Ho (without_told _ _ _ B W) T) as (s0 & s1 & tr0 & o & H0 & H1 & K). exists before, s0, s1, tr0, o. auto.
Qed.
Theorem hub_heard r hw mem n present evs i l c p v s out : read_up r hw mem n present evs i (l ++ [NoteOn c p v]) s out -> 0 <= c < 6 -> 1 <= v ->
  without raw_write (told l) -> without (is_cc 78) (told l) -> without (is_cc 65) (told l) -> without remaps (told l) ->
  (length (filter (fun k => Z.eqb (fst k) c) (MidiSpec.held (meanings [] l))) < 10)%nat ->
  let x := pitched (meanings [] l) c p in
  0 <= bent (meanings [] l) c p -> 0 <= x -> 11 <= x / 100 <= 106 ->
  key_state out c = Some true /\ chip_freq out c = Some (fm_note r (x / 100) (x mod 100)).
Proof.
  intros H Hc Hv W1 W2 W3 W4 Hn x Hb Hx Hr. destruct (hub_note _ _ _ _ _ _ _ _ _ _ _ _ _ H W3) as (before & s0 & s1 & tr0 & o & H0 & H1 & M & K1 & K2 & K3).
  unfold x in *. rewrite <- M in *.
  destruct (hist_key _ _ _ _ _ _ _ _ _ _ _ H0 H1 Hc Hv (without_told _ _ _ M W2) (without_told _ _ _ M W3) (without_told _ _ _ M W4) Hn Hb Hx Hr) as (_ & _ & Key).
  destruct (note_pitch r hw mem before c p v s0 s1 tr0 o H0 H1 c ltac:(lia) ltac:(lia) Key (without_told _ _ _ M W1)) as (_ & Ka & Kb).
  - rewrite bent_msgs. exact Hb.
  - rewrite pitched_msgs. exact Hx.
  - rewrite K1, K2. split; [exact Ka|]. rewrite Kb, pitched_msgs. destruct (Z.eqb_spec c 9); [lia|reflexivity].
Qed.
Theorem hub_voice r hw mem n present evs i l c p v s out : read_up r hw mem n present evs i (l ++ [NoteOn c p v]) s out -> 0 <= c < 6 -> 1 <= v ->
  without raw_write (told l) -> without (is_cc 78) (told l) -> without (is_cc 65) (told l) -> without remaps (told l) ->
  without remapping (told l) -> without (is_cc 77) (told l) -> without edits_fm (told l) -> without stores (told l) ->
  drums_in_order (meanings [] l) -> c <> 2 \/ without sm_note (told l) ->
  (length (filter (fun k => Z.eqb (fst k) c) (MidiSpec.held (meanings [] l))) < 10)%nat ->
  let x := pitched (meanings [] l) c p in
  let st := settings (meanings [] l) c in
  let instrument := nth (Z.to_nat (st_prog st)) (rom_presets r) no_preset in
  0 <= bent (meanings [] l) c p -> 0 <= x -> 11 <= x / 100 <= 106 ->
  plays_preset (ym_regs out) c instrument /\ plays_level (ym_regs out) c instrument (loudness (st_vol st) v) /\ chip_st (ym_regs out) c = Some (pan_side (st_pan st)).
Proof.
  intros H Hc Hv W1 W2 W3 W4 W5 W6 W7 W8 Hd Hsm Hn x st instrument Hb Hx Hr.
  destruct (hub_note _ _ _ _ _ _ _ _ _ _ _ _ _ H W3) as (before & s0 & s1 & tr0 & o & H0 & H1 & M & K1 & K2 & K3).
  unfold instrument, st, x in *. rewrite <- M in *.
  destruct (hist_key _ _ _ _ _ _ _ _ _ _ _ H0 H1 Hc Hv (without_told _ _ _ M W2) (without_told _ _ _ M W3) (without_told _ _ _ M W4) Hn Hb Hx Hr) as (_ & _ & Key).
  assert (Hd' : drums_in_order (map message before)) by (apply order_msgs; exact Hd).
  assert (T := fun P => without_told P before l M). rewrite K3. rewrite <- settings_msgs. split; [|split].
  - apply (note_instrument r hw mem before c p v s0 s1 tr0 o H0 H1 c); auto; lia.
  - apply (note_level r hw mem before c p v s0 s1 tr0 o H0 H1 c); auto; try lia.
    destruct Hsm as [Hsm|Hsm]; [left; exact Hsm|right]. split; [auto|lia].
  - apply (note_side r hw mem before c p v s0 s1 tr0 o H0 H1 c); auto; lia.
Qed.
