From Verif Require Import Base BaseLemmas PsgModel PsgSpec SynthModel SynthSpec MidiModel MidiSpec RxModel RxSpec.
From Verif Require Import DevModel DevSpec DevProofs AppModel AppSpec AppProofs AppToneProofs AppSoundProofs LibraryProofs SoundSpec SongSpec SongProofs SongNoteProofs SongPlayProofs SongReleaseProofs AppNoteProofs ChipProofs MidiHistProofs MidiEqProofs.
From Verif Require Import AppKeyProofs MachineSpec MachineProofs MachineRunProofs MachineWireProofs MachineNoteProofs NetModel NetSpec WifiModel WifiSpec WifiProofs AirSpec.
Local Notation frames := frames_done.

Lemma played_history r hw mem evs ops a out : played r hw mem evs ops a out -> history r hw mem ops a out.
Proof. intros (s & radio & O & A & <-). exact (proj1 (on_air_does _ _ _ _ _ _ _ _ O A)). Qed.

Theorem air_silent r hw mem evs ops a out n : played r hw mem evs ops a out -> 0 <= n < 6 ->
  without raw_write ops -> without (is_cc 78) ops -> without (is_cc 65) ops -> without remapping ops ->
  MidiSpec.held (msgs ops) = [] -> key_state out n = Some false.
Proof.
  intros H Hn W1 W2 W3 W4 Hh. apply (c31_silent r hw mem ops a out n (played_history _ _ _ _ _ _ _ H) Hn); try assumption. rewrite held_msgs. exact Hh.
Qed.
Theorem air_held r hw mem evs ops a out n : played r hw mem evs ops a out -> 0 <= n < 6 ->
  without raw_write ops -> without (is_cc 78) ops -> without (is_cc 65) ops -> without remapping ops ->
  key_state out n = Some true -> exists d, dev_at (a_midi a) n d /\ d_on d = true /\ In (d_midi d, note_of d) (MidiSpec.held (msgs ops)).
Proof.
  intros H Hn W1 W2 W3 W4 Hh. rewrite <- held_msgs. apply (held_at_chip r hw mem ops a out n (played_history _ _ _ _ _ _ _ H) Hn); assumption.
Qed.

(** A Note On and frames, at the chip. *)
Lemma hist_note r hw mem before c p v tail a tr : history r hw mem (before ++ AMsg (MNoteOn c p v) :: tail) a tr -> without (is_cc 65) before -> msgs tail = [] ->
  exists s0 s tr0 o, history r hw mem before s0 tr0 /\ history r hw mem (before ++ [AMsg (MNoteOn c p v)]) s (tr0 ++ o) /\
    (forall n, key_state tr n = key_state (tr0 ++ o) n) /\ (forall n, chip_freq tr n = chip_freq (tr0 ++ o) n) /\ ym_regs tr = ym_regs (tr0 ++ o).
Proof.
  intros Ho W T. replace (before ++ AMsg (MNoteOn c p v) :: tail) with ((before ++ [AMsg (MNoteOn c p v)]) ++ tail) in Ho by (rewrite <- app_assoc; reflexivity).
  destruct (history_app _ _ _ _ _ _ _ Ho) as (s & tr1 & H1). assert (H1' := H1). apply history_prefix in H1' as (s0 & tr0 & o & H0 & _ & _ & ->).
  assert (W1 : without (is_cc 65) (before ++ [AMsg (MNoteOn c p v)])).
  { intros x Hx. apply in_app_or in Hx as [Hx|[Hx|[]]]; [exact (W x Hx)|]. injection Hx as <-. intros (a' & b & [=]). }
  destruct (quiet_frames r hw mem _ tail W1 T _ _ _ _ H1 Ho) as (o2 & -> & F). destruct (psg_chip (tr0 ++ o) o2 F) as (K1 & K2 & K3).
  exists s0, s, tr0, o. repeat (split; [assumption|]). assumption.
Qed.
Lemma hist_key r hw mem before c p v s0 s tr0 o : history r hw mem before s0 tr0 -> history r hw mem (before ++ [AMsg (MNoteOn c p v)]) s (tr0 ++ o) ->
  0 <= c < 6 -> 1 <= v -> without (is_cc 78) before -> without (is_cc 65) before -> without remaps before ->
  (length (filter (fun k => Z.eqb (fst k) c) (MidiSpec.held (msgs before))) < 10)%nat ->
  0 <= bent (msgs before) c p -> 0 <= pitched (msgs before) c p -> 11 <= pitched (msgs before) c p / 100 <= 106 ->
  MidiSpec.seven p /\ MidiSpec.seven v /\ key_state o c = Some true.
Proof.
  intros H0 H1 Hc Hv W2 W3 W4 Hn Hb Hx Hr. assert (Hok : mop_ok (MNoteOn c p v)).
  { destruct H1 as (_ & _ & F & _). apply Forall_app in F as [_ F]. exact (Forall_inv F). }
  cbn [mop_ok] in Hok. assert (P : MidiSpec.seven p /\ MidiSpec.seven v) by tauto. split; [tauto|]. split; [tauto|]. destruct P as [P V].
  destruct (note_heard r hw mem before c p v s0 tr0 H0 Hc) as (s' & o' & H1' & K).
  - exact P.
  - unfold MidiSpec.seven in V. lia.
  - exact W4.
  - exact W2.
  - rewrite tuned_msgs. apply no_porta. intros m0 Hm0. apply W3, in_msgs, Hm0.
  - rewrite held_msgs. exact Hn.
  - rewrite bent_msgs. exact Hb.
  - rewrite pitched_msgs. exact Hx.
  - rewrite pitched_msgs. exact Hr.
  - destruct (history_same _ _ _ _ _ _ _ _ H1 H1') as [_ E]. apply app_inv_head in E. subst o'. exact K.
Qed.
Theorem air_heard r hw mem evs before c p v tail a out : played r hw mem evs (before ++ AMsg (MNoteOn c p v) :: tail) a out -> msgs tail = [] -> 0 <= c < 6 -> 1 <= v ->
  without raw_write before -> without (is_cc 78) before -> without (is_cc 65) before -> without remaps before ->
  (length (filter (fun k => Z.eqb (fst k) c) (MidiSpec.held (msgs before))) < 10)%nat ->
  let x := pitched (msgs before) c p in
  0 <= bent (msgs before) c p -> 0 <= x -> 11 <= x / 100 <= 106 ->
  key_state out c = Some true /\ chip_freq out c = Some (fm_note r (x / 100) (x mod 100)).
Proof.
  intros H T Hc Hv W1 W2 W3 W4 Hn x Hb Hx Hr. apply played_history in H. destruct (hist_note _ _ _ _ _ _ _ _ _ _ H W3 T) as (s0 & s & tr0 & o & H0 & H1 & K1 & K2 & K3).
  destruct (hist_key _ _ _ _ _ _ _ _ _ _ _ H0 H1 Hc Hv W2 W3 W4 Hn Hb Hx Hr) as (_ & _ & Key).
  destruct (note_pitch r hw mem before c p v s0 s tr0 o H0 H1 c ltac:(lia) ltac:(lia) Key W1) as (_ & Ka & Kb).
  - rewrite bent_msgs. exact Hb.
  - rewrite pitched_msgs. exact Hx.
  - rewrite K1, K2. split; [exact Ka|]. rewrite Kb, pitched_msgs. fold x. destruct (Z.eqb_spec c 9); [lia|reflexivity].
Qed.
Theorem air_voice r hw mem evs before c p v tail a out : played r hw mem evs (before ++ AMsg (MNoteOn c p v) :: tail) a out -> msgs tail = [] -> 0 <= c < 6 -> 1 <= v ->
  without raw_write before -> without (is_cc 78) before -> without (is_cc 65) before -> without remaps before ->
  without remapping before -> without (is_cc 77) before -> without edits_fm before -> without stores before ->
  drums_in_order (msgs before) -> c <> 2 \/ without sm_note before ->
  (length (filter (fun k => Z.eqb (fst k) c) (MidiSpec.held (msgs before))) < 10)%nat ->
  let x := pitched (msgs before) c p in
  let st := settings (msgs before) c in
  let instrument := nth (Z.to_nat (st_prog st)) (rom_presets r) no_preset in
  0 <= bent (msgs before) c p -> 0 <= x -> 11 <= x / 100 <= 106 ->
  plays_preset (ym_regs out) c instrument /\ plays_level (ym_regs out) c instrument (loudness (st_vol st) v) /\ chip_st (ym_regs out) c = Some (pan_side (st_pan st)).
Proof.
  intros H T Hc Hv W1 W2 W3 W4 W5 W6 W7 W8 Hd Hsm Hn x st instrument Hb Hx Hr. apply played_history in H.
  destruct (hist_note _ _ _ _ _ _ _ _ _ _ H W3 T) as (s0 & s & tr0 & o & H0 & H1 & K1 & K2 & K3).
  destruct (hist_key _ _ _ _ _ _ _ _ _ _ _ H0 H1 Hc Hv W2 W3 W4 Hn Hb Hx Hr) as (_ & _ & Key).
  assert (Hd' : drums_in_order (map message before)) by (apply order_msgs; exact Hd).
  rewrite K3. unfold instrument, st. rewrite <- settings_msgs. split; [|split].
  - apply (note_instrument r hw mem before c p v s0 s tr0 o H0 H1 c); try assumption; lia.
  - apply (note_level r hw mem before c p v s0 s tr0 o H0 H1 c); try assumption; try lia.
    destruct Hsm as [Hsm|Hsm]; [left; exact Hsm|right]. split; [exact Hsm|lia].
  - apply (note_side r hw mem before c p v s0 s tr0 o H0 H1 c); try assumption; lia.
Qed.

(** PSG notes. *)
Theorem air_envelope r hw mem evs before c p v n more a out pre body post junk : played r hw mem evs (before ++ AMsg (MNoteOn c p v) :: more) a out ->
  psg_note r hw mem before c p v n -> undisturbed c more -> in_range (before ++ AMsg (MNoteOn c p v) :: more) c p ->
  voice_envelope r before c (loop_env pre body post junk) -> Forall data_byte pre -> Forall data_byte body -> Forall data_byte post -> body <> [] ->
  note_sounds r (before ++ AMsg (MNoteOn c p v) :: more) out n c p v (PsgSpec.held pre body (frames more)).
Proof. intros H. intros. apply played_history in H. eapply note_held; eassumption. Qed.
Theorem air_released r hw mem evs before c p v n more off after a out pre body post junk : played r hw mem evs ((before ++ AMsg (MNoteOn c p v) :: more) ++ AMsg off :: after) a out ->
  psg_note r hw mem before c p v n -> undisturbed c more -> in_range (before ++ AMsg (MNoteOn c p v) :: more) c p ->
  lets_go (before ++ AMsg (MNoteOn c p v) :: more) c p n off -> left_alone (before ++ AMsg (MNoteOn c p v) :: more) after c n ->
  voice_envelope r before c (loop_env pre body post junk) -> Forall data_byte pre -> Forall data_byte body -> Forall data_byte post -> body <> [] ->
  note_sounds r (before ++ AMsg (MNoteOn c p v) :: more) out n c p v (PsgSpec.released pre body post (frames more) (frames after)) /\
  (len body + len post <= frames after -> chip_att att_at_boot out n = 15).
Proof. intros H. intros. apply played_history in H. split; [eapply note_released; eassumption|intros; eapply note_fades; eassumption]. Qed.

(** The interface on the network never stops at a fault. *)
Theorem air_runs_on r hw mem evs ops : rom_ok r -> mem_ok mem -> Forall wev_ok evs -> asks false evs ops -> Forall calm (msgs ops) ->
  exists a out, played r hw mem evs ops a out.
Proof.
  intros Hr Hm He A C. destruct (history_dacless r hw mem ops Hr Hm (asks_ok _ _ _ A)) as (a & out & H).
  - intros m Hin. rewrite Forall_forall in C. apply C, in_msgs, Hin.
  - intros m Hin. rewrite Forall_forall in C. apply C, in_msgs, Hin.
  - destruct (on_air_can _ _ _ _ _ _ _ H He A) as (s & radio & O & E). exists a, out, s, radio. auto.
Qed.
Lemma played_can r hw mem evs ops a out : history r hw mem ops a out -> Forall wev_ok evs -> asks false evs ops -> played r hw mem evs ops a out.
Proof. intros H He A. destruct (on_air_can _ _ _ _ _ _ _ H He A) as (s & radio & O & E). exists s, radio. auto. Qed.
