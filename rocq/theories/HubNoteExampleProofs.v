(** Notes on one transport while others chatter. *)
From Verif Require Import Base BaseLemmas PitchSpec SynthModel SynthSpec MidiModel MidiSpec RxModel RxSpec DevModel DevSpec AppModel AppSpec AppExampleProofs SoundSpec CommModel CommSpec MachineSpec HubModel HubSpec HubProofs HubExampleProofs HubNoteSpec.
From Verif Require MachineExampleProofs.

Ltac none := let m := fresh in let H := fresh in intros m H; cbn in H;
  repeat (destruct H as [H|H]); try contradiction; try discriminate H; injection H as <-; MachineExampleProofs.not_such.

(** A program and a note over transport 1; the release comes over transport 0. *)
Definition chosen_prog : list msg := [Program 0 5].
Definition across : list hevent :=
  [HArrive 1 0xC0; HPoll; HFrame 1; HArrive 1 5; HPoll; HArrive 1 0x90; HArrive 1 60; HArrive 1 100; HArrive 0 0x80; HArrive 0 60; HArrive 0 64;
   HPoll; HPoll; HPoll; HFrame 1; HPoll; HPoll; HPoll; HPoll].
Lemma across_chosen : chosen 5 all_there across 1.
Proof.
  exists [HArrive 1 0xC0]. eexists. split; [reflexivity|]. split; [split; [lia|split; [reflexivity|discriminate]]|]. split.
  - intros j Hj (_ & _ & D). apply D. destruct j as [|j]; [reflexivity|lia].
  - intros pre post E j. exfalso. destruct pre as [|x pre]; [discriminate|]. injection E as _ E. destruct pre; discriminate.
Qed.
Lemma across_heard : exists s out, read_up (shipped false) no_cartridge blank_memory 5 all_there across 1 (chosen_prog ++ [NoteOn 0 60 100]) s out /\
  arrivals 0 across = stream [NoteOff 0 60 64] /\ hb_queue s 0 = arrivals 0 across /\ key_state out 0 = Some true /\ chip_freq out 0 = Some (4, 644).
Proof.
  destruct (hub_see 5 all_there across (fun s out tr => (hb_queue s 1%nat, hb_queue s 0%nat, key_state out 0, chip_freq out 0)) ([], [0x80; 60; 64], Some true, Some (4, 644))) as (s & out & tr & H & V); [vm_compute; reflexivity|].
  injection V as V1 V2 V3 V4. exists s, out. split; [|auto]. split; [eauto|]. split; [repeat constructor; cbn; unfold chan_ok, data_ok; lia|]. split; [exact across_chosen|]. auto.
Qed.
Lemma c114_example : without raw_write (told chosen_prog) /\ without (is_cc 78) (told chosen_prog) /\ without (is_cc 65) (told chosen_prog) /\
  without remaps (told chosen_prog) /\ without remapping (told chosen_prog) /\ without (is_cc 77) (told chosen_prog) /\ without edits_fm (told chosen_prog) /\
  without stores (told chosen_prog) /\ drums_in_order (meanings [] chosen_prog) /\ (length (filter (fun k => Z.eqb (fst k) 0) (MidiSpec.held (meanings [] chosen_prog))) < 10)%nat /\
  0 <= bent (meanings [] chosen_prog) 0 60 /\ pitched (meanings [] chosen_prog) 0 60 = 6000 /\ st_prog (settings (meanings [] chosen_prog) 0) = 5 /\
  exists s out, read_up (shipped false) no_cartridge blank_memory 5 all_there across 1 (chosen_prog ++ [NoteOn 0 60 100]) s out /\ key_state out 0 = Some true /\ chip_freq out 0 = Some (4, 644).
Proof.
  do 8 (split; [none|]). split; [vm_compute; congruence|]. split; [vm_compute; lia|]. split; [vm_compute; congruence|]. split; [reflexivity|]. split; [reflexivity|].
  destruct across_heard as (s & out & H & _ & _ & K). exists s, out. auto.
Qed.
(** Everything that came over all transports, in the order of its arrival: nothing is held. *)
Lemma c114_across :
  MidiSpec.held (meanings [] (chosen_prog ++ [NoteOn 0 60 100] ++ [NoteOff 0 60 64])) = [] /\
  exists s out, read_up (shipped false) no_cartridge blank_memory 5 all_there across 1 (chosen_prog ++ [NoteOn 0 60 100]) s out /\
    arrivals 0 across = stream [NoteOff 0 60 64] /\ hb_queue s 0 = arrivals 0 across /\ key_state out 0 = Some true.
Proof. split; [reflexivity|]. destruct across_heard as (s & out & H & A & B & K & _). exists s, out. auto. Qed.

(** The same release over the transport in use. *)
Definition tap : list msg := [NoteOn 0 60 100; NoteOff 0 60 64].
Definition tapped : list hevent :=
  [HArrive 1 0x90; HPoll; HArrive 1 60; HArrive 1 100; HArrive 0 0x90; HPoll; HPoll; HFrame 1; HArrive 1 0x80; HArrive 1 60; HArrive 1 64; HPoll; HPoll; HPoll].
Lemma tapped_chosen : chosen 5 all_there tapped 1.
Proof.
  exists [HArrive 1 0x90]. eexists. split; [reflexivity|]. split; [split; [lia|split; [reflexivity|discriminate]]|]. split.
  - intros j Hj (_ & _ & D). apply D. destruct j as [|j]; [reflexivity|lia].
  - intros pre post E j. exfalso. destruct pre as [|x pre]; [discriminate|]. injection E as _ E. destruct pre; discriminate.
Qed.
Lemma c114_tapped : without raw_write (told tap) /\ without (is_cc 78) (told tap) /\ without (is_cc 65) (told tap) /\ without remapping (told tap) /\ MidiSpec.held (meanings [] tap) = [] /\
  exists s out, read_up (shipped false) no_cartridge blank_memory 5 all_there tapped 1 tap s out /\ arrivals 0 tapped = [0x90].
Proof.
  do 4 (split; [none|]). split; [reflexivity|].
  destruct (hub_see 5 all_there tapped (fun s out tr => hb_queue s 1%nat) []) as (s & out & tr & H & V); [vm_compute; reflexivity|].
  exists s, out. split; [|reflexivity]. split; [eauto|]. split; [repeat constructor; cbn; unfold chan_ok, data_ok; lia|]. split; [exact tapped_chosen|]. auto.
Qed.
