(** Witnesses for editing sounds, samples and special mode. *)
From Verif Require Import Base SynthModel SynthSpec MidiModel MidiSpec RomData DevModel DevSpec AppModel AppSpec AppExampleProofs SoundSpec SoundExampleProofs EditSpec.

Ltac no_remap := let m := fresh in let H := fresh in intros m H; cbn in H;
  repeat (destruct H as [H|H]; [try discriminate H; injection H as <-; intros [(? & ? & [=])|[(? & [=])|[(? & [=])|(? & [=])]]]|]); destruct H.

(** A note sounds on the first channel while the attack rate of its first operator is
    turned up; then a raw write to the same chip. *)
Definition tweak : list aop := [AMsg (MNoteOn 0 60 100)].
Lemma edit_example : without raw_write tweak /\ without remaps tweak /\ editing (map message tweak) = true /\ edits 43 0 = Some (FAttack 0 0) /\ dial (FAttack 0 0) 100 = 25 /\
  editing (map message (tweak ++ [AMsg (own_sysex 4 [0])])) = false /\
  exists s tr, history (shipped false) no_cartridge blank_memory (tweak ++ [AMsg (MCc 0 43 100)]) s tr /\
    field_read (FAttack 0 0) (ym_regs tr) = Some 25 /\ key_state tr 0 = Some true.
Proof.
  split; [no_message|]. split; [no_remap|]. split; [reflexivity|]. split; [reflexivity|]. split; [reflexivity|]. split; [reflexivity|].
  destruct (app_see false (tweak ++ [AMsg (MCc 0 43 100)]) (fun _ tr => (field_read (FAttack 0 0) (ym_regs tr), key_state tr 0)) (Some 25, Some true))
    as (s & tr & H & C); [reflexivity|vm_compute; reflexivity|]. exists s, tr. split; [exact H|]. injection C as C1 C2. exact (conj C1 C2).
Qed.
Lemma raw_example : raw_message 1 0xB4 0xC0 = MSysex [0x00; 0x22; 0x77; 9; 0xB; 4; 0xC; 0] /\
  exists s tr, history (shipped false) no_cartridge blank_memory tweak s tr.
Proof.
  split; [reflexivity|]. destruct (app_see false tweak (fun _ _ => tt) tt) as (s & tr & H & _); [reflexivity|vm_compute; reflexivity|]. eauto.
Qed.

(** The sample channel on, a kick drum, All Notes Off. *)
Definition drums : list aop := [AMsg (MCc 0 78 127)].
Definition drums_stopped : list aop := drums ++ [AMsg (MNoteOn 5 35 100); AMsg (MCc 5 123 0)].
Lemma drums_example : without remaps drums /\ sampling (map message drums) = true /\ tn_glide (tuned (map message drums)) 5 = false /\
  filter (fun k => Z.eqb (fst k) 5) (held (map message drums)) = [] /\ bent (map message drums) 5 35 = 3500 /\ pitched (map message drums) 5 35 = 3500 /\
  sample_start (shipped false) 35 = [EvPcmStart 8] /\ sample_start (shipped false) 20 = [] /\
  exists s tr, history (shipped false) no_cartridge blank_memory drums s tr.
Proof.
  split; [no_remap|]. do 7 (split; [vm_compute; reflexivity|]).
  destruct (app_see false drums (fun _ _ => tt) tt) as (s & tr & H & _); [reflexivity|vm_compute; reflexivity|]. eauto.
Qed.
Lemma drums_ring_on : exists s tr, history (shipped false) no_cartridge blank_memory drums_stopped s tr /\ sample_playing tr = true.
Proof. destruct (app_see false drums_stopped (fun _ tr => sample_playing tr) true) as (s & tr & H & C); [reflexivity|vm_compute; reflexivity|]. eauto. Qed.
Theorem samples_ring_on : ~ forall r hw mem ops v s tr, history r hw mem (ops ++ [AMsg (MCc 5 123 v)]) s tr -> sample_playing tr = false.
Proof.
  intros C. destruct drums_ring_on as (s & tr & H & E). specialize (C _ _ _ (drums ++ [AMsg (MNoteOn 5 35 100)]) 0 s tr H). congruence.
Qed.

(** Reset All Controllers on the sample channel: it plays FM notes again, but the chip
    still takes its output from the samples. *)
Definition muted : list aop := [AMsg (MCc 5 78 127); AMsg (MCc 5 121 0); AMsg (MNoteOn 5 60 100)].
Lemma muted_example : exists s tr, history (shipped false) no_cartridge blank_memory muted s tr /\ key_state tr 5 = Some true /\ dac_selected (ym_regs tr) = true.
Proof.
  destruct (app_see false muted (fun _ tr => (key_state tr 5, dac_selected (ym_regs tr))) (Some true, true)) as (s & tr & H & C); [reflexivity|vm_compute; reflexivity|].
  exists s, tr. split; [exact H|]. injection C as -> ->. auto.
Qed.
Theorem sixth_muted : ~ forall r hw mem ops s tr, history r hw mem ops s tr -> without remaps ops -> key_state tr 5 = Some true -> dac_selected (ym_regs tr) = false.
Proof.
  intros C. destruct muted_example as (s & tr & H & K & D). assert (W : without remaps muted) by no_remap. specialize (C _ _ _ _ s tr H W K). congruence.
Qed.

(** Special mode on, all four operators of the third channel outputs, a note on it and one
    on its first operator, which is released again. *)
Definition split_voice : list aop := [AMsg (MCc 2 80 127); AMsg (MCc 2 14 127); AMsg (MNoteOn 2 60 100)].
Definition split_off : list aop := split_voice ++ [AMsg (MNoteOn 10 64 100); AMsg (MNoteOff 10 64)].
Lemma split_example : without remaps split_voice /\ tn_glide (tuned (map message split_voice)) 10 = false /\
  filter (fun k => Z.eqb (fst k) 10) (held (map message split_voice)) = [] /\ bent (map message split_voice) 10 64 = 6400 /\ pitched (map message split_voice) 10 64 = 6400 /\
  fm_note (shipped false) 64 0 = (4, 810) /\
  exists s tr, history (shipped false) no_cartridge blank_memory split_voice s tr.
Proof.
  split; [no_remap|]. do 5 (split; [vm_compute; reflexivity|]).
  destruct (app_see false split_voice (fun _ _ => tt) tt) as (s & tr & H & _); [reflexivity|vm_compute; reflexivity|]. eauto.
Qed.
Lemma split_sounds : exists s tr, history (shipped false) no_cartridge blank_memory split_off s tr /\ special_freq (ym_regs tr) 0 = Some (4, 810) /\ key_state tr 2 = Some true /\ chip_tl (ym_regs tr) 2 0 <> Some 127.
Proof.
  destruct (app_see false split_off (fun _ tr => (special_freq (ym_regs tr) 0, key_state tr 2, match chip_tl (ym_regs tr) 2 0 with Some t => t <? 127 | None => false end)) (Some (4, 810), Some true, true))
    as (s & tr & H & C); [reflexivity|vm_compute; reflexivity|]. injection C as C1 C2 C3. exists s, tr. repeat (split; [assumption|]).
  intros X. rewrite X in C3. discriminate.
Qed.
Theorem operators_ring_on : ~ forall r hw mem ops q p v s tr, 0 <= q < 3 -> history r hw mem (ops ++ [AMsg (MNoteOn (10 + q) p v); AMsg (MNoteOff (10 + q) p)]) s tr ->
  key_state tr 2 = Some true -> chip_tl (ym_regs tr) 2 q = Some 127.
Proof.
  intros C. destruct split_sounds as (s & tr & H & _ & K & T). apply T. apply (C _ _ _ split_voice 0 64 100 s tr ltac:(lia) H K).
Qed.

(** The level of a modulator, told in both directions; and one that became a carrier at
    volume 0, told the level it had. *)
Definition fader : list aop := [AMsg (MNoteOn 0 60 100)].
Lemma fader_example : without remaps fader /\ editing (map message fader) = true /\ told_level (map message fader) 30 = 30 /\
  told_level (map message (fader ++ [AMsg (own_sysex 7 [1])])) 30 = 97 /\
  exists s tr, history (shipped false) no_cartridge blank_memory (fader ++ [AMsg (own_sysex 7 [1]); AMsg (MCc 0 16 30)]) s tr /\
    chip_tl (ym_regs tr) 0 0 = Some 97 /\ chip_tl (ym_regs tr) 0 1 = Some 4.
Proof.
  split; [no_remap|]. do 3 (split; [reflexivity|]).
  destruct (app_see false (fader ++ [AMsg (own_sysex 7 [1]); AMsg (MCc 0 16 30)]) (fun _ tr => (chip_tl (ym_regs tr) 0 0, chip_tl (ym_regs tr) 0 1)) (Some 97, Some 4))
    as (s & tr & H & C); [reflexivity|vm_compute; reflexivity|]. exists s, tr. split; [exact H|]. injection C as C1 C2. exact (conj C1 C2).
Qed.
Definition faded : list aop := [AMsg (MCc 0 7 0); AMsg (MCc 0 14 127)].
Lemma faded_loud : exists s tr, history (shipped false) no_cartridge blank_memory (faded ++ [AMsg (MCc 0 16 39)]) s tr /\
  (chip_tl (ym_regs tr) 0 0, zget (s_vols (v_synth (a_dev s))) 0, option_map c_alg (zget (s_chans (v_synth (a_dev s))) 0)) = (Some 39, Some 0, Some 7).
Proof.
  apply (app_see false (faded ++ [AMsg (MCc 0 16 39)])
    (fun s tr => (chip_tl (ym_regs tr) 0 0, zget (s_vols (v_synth (a_dev s))) 0, option_map c_alg (zget (s_chans (v_synth (a_dev s))) 0)))); [reflexivity|vm_compute; reflexivity].
Qed.
Theorem levels_stay : ~ forall r hw mem ops c q v s tr, history r hw mem (ops ++ [AMsg (MCc c (16 + q) v)]) s tr -> without remaps ops -> without raw_write ops ->
  editing (map message ops) = true -> levels_inverted (map message ops) = false -> 0 <= c < 6 -> 0 <= q < 4 ->
  exists ch vl, zget (s_chans (v_synth (a_dev s))) c = Some ch /\ zget (s_vols (v_synth (a_dev s))) c = Some vl /\
    chip_tl (ym_regs tr) c q = Some (expected_level (c_alg ch) vl q v).
Proof.
  intros C. destruct faded_loud as (s & tr & H & E). injection E as E1 E2 E3.
  destruct (C _ _ _ faded 0 0 39 s tr H) as (ch & vl & F1 & F2 & F3); [no_remap|no_message|reflexivity|reflexivity|lia|lia|].
  rewrite F2 in E2. injection E2 as ->. rewrite F1 in E3. cbn [option_map] in E3. injection E3 as E3. rewrite E1, E3 in F3. discriminate F3.
Qed.
