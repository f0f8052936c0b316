(** Witnesses for the statements about re-assigned device channels. *)
From Verif Require Import Base BaseLemmas SynthModel SynthSpec SramModel PsgModel MidiModel RomData.
From Verif Require Import DevModel DevSpec AppModel AppSpec AppProofs AppExampleProofs SoundSpec SoundExampleProofs NoteExampleProofs AssignSpec.
From Verif Require PsgSpec MidiSpec.
Import MidiSpec(is_cc, own_sysex, dev_at, held).

(** FM channel 3 is given to MIDI channel 14, after a note on it. *)
Definition moving : list aop := [AMsg (MNoteOn 2 60 100); AMsg (MNoteOff 2 60); AMsg (own_sysex 0 [13; 2]); AMsg (MBend 13 12288)].
Lemma moving_only : only (assigned (map message moving)) 13 2.
Proof. intros i Hi. change (assigned (map message moving) i) with (if i =? 2 then 13 else i). destruct (Z.eqb_spec i 2); lia. Qed.
Lemma moving_left i : 0 <= i < 13 -> assigned (map message moving) i <> 2.
Proof. intros Hi. change (assigned (map message moving) i) with (if i =? 2 then 13 else i). destruct (Z.eqb_spec i 2); lia. Qed.
Lemma c115_example :
  without asks_mode moving /\ without (is_cc 78) moving /\ without raw_write moving /\ only (assigned (map message moving)) 13 2 /\
  (forall i, 0 <= i < 13 -> assigned (map message moving) i <> 2) /\
  tn_glide (tuned (map message moving)) 13 = false /\ held (map message moving) = [] /\ bent (map message moving) 13 60 = 6100 /\ pitched (map message moving) 13 60 = 6100 /\
  exists s0 tr0 s o, history (shipped false) no_cartridge blank_memory moving s0 tr0 /\
    history (shipped false) no_cartridge blank_memory (moving ++ [AMsg (MNoteOn 13 60 100)]) s (tr0 ++ o) /\
    key_state tr0 2 = Some false /\ key_state o 2 = Some true.
Proof.
  unfold asks_mode. repeat (split; [no_message|]). split; [exact moving_only|]. split; [exact moving_left|]. repeat (split; [vm_compute; reflexivity|]).
  destruct (last_see false moving (AMsg (MNoteOn 13 60 100)) (fun _ tr0 _ o => (key_state tr0 2, key_state o 2)) (Some false, Some true)) as (s0 & tr0 & s & o & H0 & H & C); [reflexivity|vm_compute; reflexivity|].
  injection C as C0 C1. exists s0, tr0, s, o. repeat (split; [assumption|]). assumption.
Qed.

(** FM channel 1 is given away while its note sounds. *)
Definition given_away : list aop := [AMsg (MNoteOn 0 60 100); AMsg (own_sysex 0 [13; 0])].
Lemma c115_hangs :
  held (map message (given_away ++ [AMsg (MNoteOff 0 60)])) = [] /\
  exists s0 tr0 s o, history (shipped false) no_cartridge blank_memory given_away s0 tr0 /\
    history (shipped false) no_cartridge blank_memory (given_away ++ [AMsg (MNoteOff 0 60)]) s (tr0 ++ o) /\
    key_state (tr0 ++ o) 0 = Some true.
Proof.
  split; [reflexivity|].
  destruct (last_see false given_away (AMsg (MNoteOff 0 60)) (fun _ tr0 _ o => key_state (tr0 ++ o) 0) (Some true)) as (s0 & tr0 & s & o & H0 & H & C); [reflexivity|vm_compute; reflexivity|].
  exists s0, tr0, s, o. auto.
Qed.

(** The re-assigned FM channel sounds, and is released. *)
Definition moved_note : list aop := moving ++ [AMsg (MNoteOn 13 60 100)].
Lemma c30_only_example :
  without (is_cc 78) moved_note /\ held (map message moved_note) = [(13, 60)] /\
  exists s0 tr0 s o d, history (shipped false) no_cartridge blank_memory moved_note s0 tr0 /\
    history (shipped false) no_cartridge blank_memory (moved_note ++ [AMsg (MNoteOff 13 60)]) s (tr0 ++ o) /\
    dev_at (a_midi s0) 2 d /\ d_on d = true /\ d_midi d = 13 /\ MidiSpec.note_of d = 60 /\ key_state tr0 2 = Some true /\ key_state o 2 = Some false.
Proof.
  unfold moved_note, moving. cbn [Datatypes.app]. split; [no_message|]. fold moving. split; [reflexivity|].
  destruct (last_see false moved_note (AMsg (MNoteOff 13 60))
    (fun s0 tr0 _ o => (option_map (fun d => (d_on d, d_midi d, MidiSpec.note_of d)) (zget (md_dev (a_midi s0)) 2), key_state tr0 2, key_state o 2))
    (Some (true, 13, 60), Some true, Some false)) as (s0 & tr0 & s & o & H0 & H & C); [reflexivity|vm_compute; reflexivity|].
  destruct (zget (md_dev (a_midi s0)) 2) as [d|] eqn:E; [|discriminate C]. cbn [option_map] in C. injection C as C1 C2 C3 C4 C5.
  exists s0, tr0, s, o, d. repeat (split; [assumption|]). assumption.
Qed.

(** FM channels 1 and 2 serve MIDI channel 1, which holds one note. *)
Definition two_voices : list aop := [AMsg (own_sysex 0 [0; 1]); AMsg (MNoteOn 0 60 100)].
Lemma c115_chord_example :
  without (is_cc 78) two_voices /\ without raw_write two_voices /\
  bent (map message two_voices) 0 64 = 6400 /\ pitched (map message two_voices) 0 64 = 6400 /\
  exists s0 tr0 s o d0 d2 m0, history (shipped false) no_cartridge blank_memory two_voices s0 tr0 /\
    dev_at (a_midi s0) 1 d0 /\ d_on d0 = false /\ d_midi d0 = 0 /\ dev_at (a_midi s0) 0 d2 /\ d_midi d2 = 0 /\ MidiSpec.ch_at (a_midi s0) 0 m0 /\ m_sel m0 = 0 /\
    history (shipped false) no_cartridge blank_memory (two_voices ++ [AMsg (MNoteOn 0 64 100)]) s (tr0 ++ o) /\
    key_state tr0 0 = Some true /\ key_state (tr0 ++ o) 0 = Some true /\ key_state o 1 = Some true.
Proof.
  split; [no_message|]. split; [no_message|]. split; [reflexivity|]. split; [reflexivity|].
  destruct (last_see false two_voices (AMsg (MNoteOn 0 64 100))
    (fun s0 tr0 _ o => (option_map (fun d => (d_on d, d_midi d)) (zget (md_dev (a_midi s0)) 1), option_map d_midi (zget (md_dev (a_midi s0)) 0),
      option_map m_sel (zget (md_ch (a_midi s0)) 0), key_state tr0 0, key_state (tr0 ++ o) 0, key_state o 1))
    (Some (false, 0), Some 0, Some 0, Some true, Some true, Some true)) as (s0 & tr0 & s & o & H0 & H & C); [reflexivity|vm_compute; reflexivity|].
  destruct (zget (md_dev (a_midi s0)) 1) as [d0|] eqn:E0; [|discriminate C]. destruct (zget (md_dev (a_midi s0)) 0) as [d2|] eqn:E2; [|discriminate C].
  destruct (zget (md_ch (a_midi s0)) 0) as [m0|] eqn:E3; [|discriminate C]. cbn [option_map] in C. injection C as C1 C2 C3 C4 C5 C6 C7.
  exists s0, tr0, s, o, d0, d2, m0. repeat (split; [assumption|]). assumption.
Qed.
