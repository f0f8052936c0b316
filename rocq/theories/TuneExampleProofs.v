(** Witnesses for the statements about tuning while notes sound. *)
From Verif Require Import Base BaseLemmas SynthModel SynthSpec SramModel PsgModel MidiModel RomData.
From Verif Require Import DevModel DevSpec AppModel AppSpec AppProofs AppExampleProofs SoundSpec SoundExampleProofs NoteExampleProofs TuneSpec.
From Verif Require PsgSpec MidiSpec.
Import MidiSpec(is_cc, remapping, dev_at, held, settings, st_bend, st_semis, st_cents, range_selected).

(** Two notes on two channels; the wheel of the first is half way up. *)
Definition wide : list aop := [AMsg (MCc 0 101 0); AMsg (MCc 0 100 0); AMsg (MNoteOn 0 60 100); AMsg (MNoteOn 1 64 100); AMsg (MBend 0 12288)].
Lemma c113_range_example :
  without raw_write wide /\ without remapping wide /\ without (is_cc 78) wide /\ range_selected (settings (map message wide) 0) = true /\
  st_bend (settings (map message wide) 0) = 12288 /\ bent (map message (wide ++ [AMsg (MCc 0 6 12)])) 0 60 = 6600 /\
  exists s0 tr0 s o d e, history (shipped false) no_cartridge blank_memory wide s0 tr0 /\
    history (shipped false) no_cartridge blank_memory (wide ++ [AMsg (MCc 0 6 12)]) s (tr0 ++ o) /\
    dev_at (a_midi s0) 0 d /\ d_on d = true /\ d_midi d = 0 /\ d_pitch d = 60 /\ dev_at (a_midi s0) 1 e /\ d_midi e = 1 /\
    key_state tr0 0 = Some true /\ chip_freq tr0 0 = Some (4, 681) /\ chip_freq (tr0 ++ o) 0 = Some (4, 910) /\
    chip_freq tr0 1 = Some (4, 810) /\ chip_freq (tr0 ++ o) 1 = Some (4, 810).
Proof.
  repeat (split; [no_message|]). repeat (split; [vm_compute; reflexivity|]).
  destruct (last_see false wide (AMsg (MCc 0 6 12)) (fun s0 tr0 _ o => (voice_of 0 s0, voice_of 1 s0, key_state tr0 0, chip_freq tr0 0, chip_freq (tr0 ++ o) 0, chip_freq tr0 1, chip_freq (tr0 ++ o) 1))
    (Some (true, 0, 60), Some (true, 1, 64), Some true, Some (4, 681), Some (4, 910), Some (4, 810), Some (4, 810))) as (s0 & tr0 & s & o & H0 & H & C); [reflexivity|vm_compute; reflexivity|].
  injection C as C0 C1 C2 C3 C4 C5 C6. destruct (voice_is _ _ _ _ _ C0) as (d & D1 & D2 & D3 & D4). destruct (voice_is _ _ _ _ _ C1) as (e & E1 & E2 & E3 & E4).
  exists s0, tr0, s, o, d, e. repeat (split; [assumption|]). assumption.
Qed.
Definition fading : list aop := wide ++ [AMsg (MNoteOff 0 60)].
Lemma c113_fading :
  without raw_write fading /\ without remapping fading /\ without (is_cc 78) fading /\ held (map message fading) = [(1, 64)] /\
  range_selected (settings (map message fading) 0) = true /\ fm_note (shipped false) 66 0 = (4, 910) /\ fm_note (shipped false) 6 0 = (0, 1146) /\
  exists s0 tr0 s o, history (shipped false) no_cartridge blank_memory fading s0 tr0 /\
    history (shipped false) no_cartridge blank_memory (fading ++ [AMsg (MCc 0 6 12)]) s (tr0 ++ o) /\
    key_state tr0 0 = Some false /\ chip_freq tr0 0 = Some (4, 681) /\ chip_freq (tr0 ++ o) 0 = Some (0, 1146).
Proof.
  unfold fading, wide. cbn [Datatypes.app]. repeat (split; [no_message|]). fold wide. repeat (split; [vm_compute; reflexivity|]). fold fading.
  destruct (last_see false fading (AMsg (MCc 0 6 12)) (fun _ tr0 _ o => (key_state tr0 0, chip_freq tr0 0, chip_freq (tr0 ++ o) 0))
    (Some false, Some (4, 681), Some (0, 1146))) as (s0 & tr0 & s & o & H0 & H & C); [reflexivity|vm_compute; reflexivity|].
  injection C as C0 C1 C2. exists s0, tr0, s, o. auto.
Qed.
Definition plain_note : list aop := [AMsg (MNoteOn 0 60 100)].
Lemma c113_fine :
  without raw_write plain_note /\ without remapping plain_note /\ without (is_cc 78) plain_note /\ held (map message plain_note) = [(0, 60)] /\
  pitched (map message (plain_note ++ [AMsg (MCc 0 85 90)])) 0 60 = 6026 /\ fm_note (shipped false) 60 26 = (4, 653) /\
  exists s0 tr0 s o, history (shipped false) no_cartridge blank_memory plain_note s0 tr0 /\
    history (shipped false) no_cartridge blank_memory (plain_note ++ [AMsg (MCc 0 85 90)]) s (tr0 ++ o) /\
    key_state (tr0 ++ o) 0 = Some true /\ chip_freq (tr0 ++ o) 0 = Some (4, 644).
Proof.
  repeat (split; [no_message|]). repeat (split; [vm_compute; reflexivity|]).
  destruct (last_see false plain_note (AMsg (MCc 0 85 90)) (fun _ tr0 _ o => (key_state (tr0 ++ o) 0, chip_freq (tr0 ++ o) 0))
    (Some true, Some (4, 644))) as (s0 & tr0 & s & o & H0 & H & C); [reflexivity|vm_compute; reflexivity|].
  injection C as C0 C1. exists s0, tr0, s, o. auto.
Qed.
Lemma c113_stored :
  stored_only (settings (map message plain_note) 0) 85 /\ stored_only (settings (map message plain_note) 0) 6 /\ ~ stored_only (settings (map message wide) 0) 6 /\
  ~ stored_only (settings (map message wide) 0) 7 /\
  exists s0 tr0 s o, history (shipped false) no_cartridge blank_memory plain_note s0 tr0 /\
    history (shipped false) no_cartridge blank_memory (plain_note ++ [AMsg (MCc 0 85 90)]) s (tr0 ++ o) /\ o = [EvMidiChange 2 0 85 90].
Proof.
  split; [left; cbn; tauto|]. split; [right; split; [left; reflexivity|reflexivity]|].
  split; [intros [X|[_ X]]; [cbn in X; lia|discriminate X]|]. split; [intros [X|[[X|X] _]]; [cbn in X; lia|discriminate X|discriminate X]|].
  apply (last_see false plain_note (AMsg (MCc 0 85 90)) (fun _ _ _ o => o)); [reflexivity|vm_compute; reflexivity].
Qed.
