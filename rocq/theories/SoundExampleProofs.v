(** Witnesses for the statements about what the FM channels play. *)
From Verif Require Import Base BaseLemmas SynthModel SynthSpec SramModel PsgModel MidiModel RomData.
From Verif Require Import DevModel DevSpec AppModel AppSpec AppProofs AppExampleProofs SoundSpec.
From Verif Require PsgSpec MidiSpec.
Import MidiSpec(is_cc, remapping, own_sysex, gm_reset_msg, dev_at, held, is_sysex_cmd, settings, st_vol, st_pan, st_prog, is_fm_controller).

(** Deciding that a history is free of certain messages. *)
Ltac no_message :=
  match goal with |- without _ _ => idtac end;
  let m := fresh in let H := fresh in intros m H; cbn in H;
  repeat (destruct H as [H|H]); try contradiction; try discriminate H; injection H as <-;
  unfold raw_write, remapping, stores, resets, edits_fm, sm_note, is_cc, is_sysex_cmd, own_sysex, gm_reset_msg;
  let X := fresh in intros X; repeat match goal with
  | Y : _ \/ _ |- _ => destruct Y as [Y|Y]
  | Y : exists _, _ |- _ => destruct Y as [? Y]
  | Y : _ /\ _ |- _ => destruct Y as [Y ?]
  end; try discriminate;
  match goal with Y : _ = _ |- _ => injection Y; intros; subst; first [lia | match goal with Z : is_fm_controller _ |- _ => exact (Z eq_refl) | Z : is_fm_controller _ /\ _ |- _ => exact (proj1 Z eq_refl) end] end.

Definition key_and_note (n : Z) (s : app) (tr : list event) : option bool * option bool :=
  (key_state tr n, option_map d_on (zget (md_dev (a_midi s)) n)).
Lemma key_note n ops x y : forallb aop_okb ops = true -> app_view (shipped false) ops (key_and_note n) = Some (Some x, Some y) ->
  exists s tr d, history (shipped false) no_cartridge blank_memory ops s tr /\
    key_state tr n = Some x /\ dev_at (a_midi s) n d /\ d_on d = y.
Proof.
  intros H1 H2. destruct (app_see false ops (key_and_note n) _ H1 H2) as (s & tr & H & C). unfold key_and_note in C.
  destruct (zget (md_dev (a_midi s)) n) as [d|] eqn:E; cbn [option_map] in C; [|discriminate C].
  injection C as C1 C2. exists s, tr, d. auto.
Qed.

(** Reset All Controllers forgets a sounding note without keying it off. *)
Definition reset_controllers_hang : list aop := [AMsg (MNoteOn 0 60 100); AMsg (MCc 0 121 0)].
(** Enabling the DAC takes FM channel 6 away from a sounding note. *)
Definition dac_hang : list aop := [AMsg (MNoteOn 5 60 100); AMsg (MCc 5 78 127); AMsg (MNoteOff 5 60)].
(** A sounding device channel taken off its MIDI channel is missed by the
    General MIDI reset. *)
Definition remap_hang : list aop :=
  [AMsg (MNoteOn 0 60 100); AMsg (own_sysex 0 [127; 0]); AMsg (MSysex [0x7E; 0x7F; 0x09; 0x01])].

Lemma c31_reset_controllers : without raw_write reset_controllers_hang /\ without (is_cc 78) reset_controllers_hang /\
  without gm_reset_msg reset_controllers_hang /\
  exists s tr d, history (shipped false) no_cartridge blank_memory reset_controllers_hang s tr /\
    key_state tr 0 = Some true /\ dev_at (a_midi s) 0 d /\ d_on d = false.
Proof. split; [no_message|]. split; [no_message|]. split; [no_message|]. apply key_note; [reflexivity|vm_compute; reflexivity]. Qed.
Lemma c31_dac : without raw_write dac_hang /\ without remapping dac_hang /\
  exists s tr d, history (shipped false) no_cartridge blank_memory dac_hang s tr /\
    key_state tr 5 = Some true /\ dev_at (a_midi s) 5 d /\ d_on d = false.
Proof. split; [no_message|]. split; [no_message|]. apply key_note; [reflexivity|vm_compute; reflexivity]. Qed.
Lemma c31_remap : without raw_write remap_hang /\ without (is_cc 121) remap_hang /\ without (is_cc 78) remap_hang /\
  exists s tr d, history (shipped false) no_cartridge blank_memory remap_hang s tr /\
    key_state tr 0 = Some true /\ dev_at (a_midi s) 0 d /\ d_on d = false.
Proof. split; [no_message|]. split; [no_message|]. split; [no_message|]. apply key_note; [reflexivity|vm_compute; reflexivity]. Qed.

Definition two_songs : list aop :=
  [AMsg (MNoteOn 0 60 100); AMsg (MNoteOn 0 64 90); AFrame; AMsg (MNoteOff 0 64); AMsg (MSysex [0x7E; 0x7F; 0x09; 0x01]);
   AMsg (MNoteOn 3 50 80); AMsg (MProgram 3 40); AMsg (MNoteOn 3 57 80); AFrame; AMsg (MNoteOff 3 50)].
Lemma c31_example :
  without raw_write two_songs /\ without (is_cc 78) two_songs /\ without remapping two_songs /\
  exists s tr d, history (shipped false) no_cartridge blank_memory two_songs s tr /\
    key_state tr 1 = Some true /\ key_state tr 0 = Some false /\ dev_at (a_midi s) 1 d /\ d_on d = true.
Proof.
  split; [no_message|]. split; [no_message|]. split; [no_message|].
  destruct (app_see false two_songs (fun s tr => (key_and_note 1 s tr, key_state tr 0)) (Some true, Some true, Some false)) as (s & tr & H & C);
    [reflexivity|vm_compute; reflexivity|].
  unfold key_and_note in C. destruct (zget (md_dev (a_midi s)) 1) as [d|] eqn:E; cbn [option_map] in C; [|discriminate C].
  injection C as C1 C2 C3. exists s, tr, d. auto.
Qed.
Definition ended : list aop := two_songs ++ [AMsg (MNoteOff 3 57); AMsg (MNoteOn 0 60 0)].
Lemma c31_silent_example :
  without raw_write ended /\ without (is_cc 78) ended /\ without (is_cc 65) ended /\ without remapping ended /\
  held (map message ended) = [] /\ exists s tr, history (shipped false) no_cartridge blank_memory ended s tr.
Proof.
  split; [no_message|]. split; [no_message|]. split; [no_message|]. split; [no_message|]. split; [reflexivity|].
  destruct (app_see false ended (fun _ _ => tt) tt) as (s & tr & H & _); [reflexivity|vm_compute; reflexivity|]. eauto.
Qed.

(** ** Instruments *)
Definition gm : aop := AMsg (MSysex [0x7E; 0x7F; 0x09; 0x01]).
(** Percussion on the noise channel in static mode marks FM channel 4 for percussion. *)
Definition noise_drum : list aop :=
  [AMsg (MNoteOn 3 60 100); AMsg (MNoteOn 3 64 100); AMsg (MNoteOn 9 64 100); AMsg (MNoteOff 3 64)].
(** A General MIDI reset forgets that a device channel last played percussion. *)
Definition stale_drum : list aop := [gm; AMsg (MNoteOn 9 40 100); gm; AMsg (MNoteOn 0 60 100)].
(** So does re-assignment. *)
Definition moved_drum : list aop :=
  [AMsg (own_sysex 0 [9; 0]); AMsg (MNoteOn 9 40 100); AMsg (MNoteOff 9 40); AMsg (own_sysex 0 [0; 0]); AMsg (MNoteOn 0 60 100)].
Definition program_preset (ops : list aop) (c : Z) : preset :=
  nth (Z.to_nat (st_prog (settings (map message ops) c))) (rom_presets (shipped false)) no_preset.
Definition wrong_instrument (ops : list aop) (n c : Z) : Prop :=
  exists s tr d, history (shipped false) no_cartridge blank_memory ops s tr /\ dev_at (a_midi s) n d /\
    d_on d = true /\ d_midi d = c /\ key_state tr n = Some true /\ ~ plays_preset (ym_regs tr) n (program_preset ops c).
Definition wrong_view (n : Z) (s : app) (tr : list event) : option bool * option (bool * Z) * option Z :=
  (key_state tr n, option_map (fun d => (d_on d, d_midi d)) (zget (md_dev (a_midi s)) n), chip_alg (ym_regs tr) n).
Lemma wrong_see ops n c a : forallb aop_okb ops = true ->
  app_view (shipped false) ops (wrong_view n) = Some (Some true, Some (true, c), Some a) -> p_alg (program_preset ops c) <> a ->
  wrong_instrument ops n c.
Proof.
  intros H1 H2 N. destruct (app_see false ops (wrong_view n) _ H1 H2) as (s & tr & H & C). unfold wrong_view in C.
  destruct (zget (md_dev (a_midi s)) n) as [d|] eqn:E; cbn [option_map] in C; [|discriminate C].
  injection C as C1 C2 C3 C4. exists s, tr, d. repeat (split; [assumption|]). intros (P & _). congruence.
Qed.
Lemma c62_noise : without raw_write noise_drum /\ without (is_cc 78) noise_drum /\ without remapping noise_drum /\ without gm_reset_msg noise_drum /\
  without edits_fm noise_drum /\ without stores noise_drum /\ wrong_instrument noise_drum 3 3.
Proof.
  repeat (split; [no_message|]). apply (wrong_see _ _ _ 6); [reflexivity|vm_compute; reflexivity|vm_compute; discriminate].
Qed.
Lemma c62_stale : without raw_write stale_drum /\ without (is_cc 78) stale_drum /\ without remapping stale_drum /\
  without edits_fm stale_drum /\ without stores stale_drum /\ wrong_instrument stale_drum 0 0.
Proof.
  repeat (split; [no_message|]). apply (wrong_see _ _ _ 5); [reflexivity|vm_compute; reflexivity|vm_compute; discriminate].
Qed.
Lemma c62_moved : without raw_write moved_drum /\ without (is_cc 78) moved_drum /\ without gm_reset_msg moved_drum /\
  without edits_fm moved_drum /\ without stores moved_drum /\ wrong_instrument moved_drum 0 0.
Proof.
  repeat (split; [no_message|]). apply (wrong_see _ _ _ 5); [reflexivity|vm_compute; reflexivity|vm_compute; discriminate].
Qed.

(** A General MIDI song with percussion, volume, panning and programs. *)
Definition gm_song : list aop :=
  [gm; AMsg (MCc 0 7 80); AMsg (MCc 0 10 120); AMsg (MProgram 0 30); AMsg (MNoteOn 9 40 110); AMsg (MNoteOn 0 60 100); AFrame;
   AMsg (MNoteOff 9 40); AMsg (MCc 1 10 10); AMsg (MProgram 1 48); AMsg (MNoteOn 1 67 90); AFrame].
Definition song_view (s : app) (tr : list event) :=
  (map (fun d => (d_on d, d_midi d)) (firstn 2 (md_dev (a_midi s))), map (chip_st (ym_regs tr)) [0; 1], map (chip_alg (ym_regs tr)) [0; 1],
   map (key_state tr) [0; 1]).
Lemma song_example :
  without raw_write gm_song /\ without remapping gm_song /\ without (is_cc 78) gm_song /\ without (is_cc 77) gm_song /\
  without edits_fm gm_song /\ without stores gm_song /\ without sm_note gm_song /\ drums_in_order (map message gm_song) /\
  exists s tr d0 d1, history (shipped false) no_cartridge blank_memory gm_song s tr /\
    dev_at (a_midi s) 0 d0 /\ d_on d0 = true /\ d_midi d0 = 1 /\ dev_at (a_midi s) 1 d1 /\ d_on d1 = true /\ d_midi d1 = 0 /\
    chip_st (ym_regs tr) 0 = Some 2 /\ chip_st (ym_regs tr) 1 = Some 1 /\
    p_alg (program_preset gm_song 1) = 4 /\ p_alg (program_preset gm_song 0) = 0.
Proof.
  repeat (split; [no_message|]). split; [unfold drums_in_order; vm_compute; let X := fresh in intros X; discriminate X|].
  destruct (app_see false gm_song song_view ([(true, 1); (true, 0)], [Some 2; Some 1], [Some 4; Some 0], [Some true; Some true]))
    as (s & tr & H & C); [reflexivity|vm_compute; reflexivity|].
  unfold song_view in C. cbn [map] in C. destruct (md_dev (a_midi s)) as [|d0 [|d1 t]] eqn:E; cbn [firstn map] in C; try discriminate C.
  injection C as C1 C2 C3 C4 C5 C6 _ _ _ _. exists s, tr, d0, d1. split; [exact H|]. unfold dev_at. rewrite E.
  repeat (split; [reflexivity || assumption|]). vm_compute. reflexivity.
Qed.
