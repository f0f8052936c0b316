(** Witnesses for the statements about notes and pitch bends at the chip. *)
From Verif Require Import Base BaseLemmas SynthModel SynthSpec SramModel PsgModel MidiModel RomData.
From Verif Require Import DevModel DevSpec AppModel AppSpec AppProofs AppExampleProofs SoundSpec SoundExampleProofs.
From Verif Require PsgSpec MidiSpec.
Import MidiSpec(is_cc, remapping, remaps, own_sysex, gm_reset_msg, dev_at, held, is_sysex_cmd, settings, st_vol, st_pan, st_prog, st_bend, is_fm_controller).

(** The last message of a history. *)
Definition last_view {V} (r : rom) (ops : list aop) (op : aop) (view : app -> list event -> app -> list event -> V) : option V :=
  match app_boot r no_cartridge blank_memory ops with
  | Done _ s0 tr0 => match app_step r op s0 with Done _ s o => Some (view s0 tr0 s o) | Fault _ => None end
  | Fault _ => None
  end.
Lemma last_see {V} pal ops op (view : app -> list event -> app -> list event -> V) v : forallb aop_okb (ops ++ [op]) = true -> last_view (shipped pal) ops op view = Some v ->
  exists s0 tr0 s o, history (shipped pal) no_cartridge blank_memory ops s0 tr0 /\
    history (shipped pal) no_cartridge blank_memory (ops ++ [op]) s (tr0 ++ o) /\ view s0 tr0 s o = v.
Proof.
  unfold last_view. intros H1 H2. rewrite forallb_app in H1. apply andb_prop in H1 as [H1 H3].
  destruct (app_boot (shipped pal) no_cartridge blank_memory ops) as [[] s0 tr0|] eqn:E; [|discriminate].
  destruct (app_step (shipped pal) op s0) as [[] s o|] eqn:E1; [|discriminate]. exists s0, tr0, s, o.
  assert (H : history (shipped pal) no_cartridge blank_memory ops s0 tr0).
  { split; [apply shipped_ok|]. split; [exact blank_memory_ok|]. split; [apply aops_ok, H1|exact E]. }
  split; [exact H|]. split; [|congruence]. eapply history_snoc; [exact H| |exact E1].
  apply aops_ok in H3. exact (Forall_inv H3).
Qed.

(** A channel with its own program, volume, pan, bend and tuning. *)
Definition tuned_song : list aop :=
  [AMsg (MProgram 2 40); AMsg (MCc 2 7 90); AMsg (MCc 2 10 0); AMsg (MBend 2 12288); AMsg (MCc 2 85 90); AMsg (MNoteOn 0 50 60); AFrame].
Definition far_bend : list aop := [AMsg (MCc 0 101 0); AMsg (MCc 0 100 0); AMsg (MCc 0 6 120); AMsg (MBend 0 0)].
Lemma c71_example :
  without raw_write tuned_song /\ without remapping tuned_song /\ without remaps tuned_song /\ without (is_cc 78) tuned_song /\ without (is_cc 77) tuned_song /\
  without edits_fm tuned_song /\ without stores tuned_song /\ without sm_note tuned_song /\ drums_in_order (map message tuned_song) /\
  tn_glide (tuned (map message tuned_song)) 2 = false /\ held (map message tuned_song) = [(0, 50)] /\
  bent (map message tuned_song) 2 60 = 6100 /\ pitched (map message tuned_song) 2 60 = 6126 /\
  exists s0 tr0 s o, history (shipped false) no_cartridge blank_memory tuned_song s0 tr0 /\
    history (shipped false) no_cartridge blank_memory (tuned_song ++ [AMsg (MNoteOn 2 60 100)]) s (tr0 ++ o) /\
    key_state o 2 = Some true /\ chip_freq (tr0 ++ o) 2 = Some (4, 691) /\ chip_st (ym_regs (tr0 ++ o)) 2 = Some 2.
Proof.
  split; [no_message|]. split; [no_message|]. split; [unfold remaps; no_message|]. repeat (split; [no_message|]).
  split; [unfold drums_in_order; vm_compute; let X := fresh in intros X; discriminate X|]. repeat (split; [vm_compute; reflexivity|]).
  destruct (last_see false tuned_song (AMsg (MNoteOn 2 60 100)) (fun _ tr0 _ o => (key_state o 2, chip_freq (tr0 ++ o) 2, chip_st (ym_regs (tr0 ++ o)) 2))
    (Some true, Some (4, 691), Some 2)) as (s0 & tr0 & s & o & H0 & H & C); [reflexivity|vm_compute; reflexivity|].
  injection C as C1 C2 C3. exists s0, tr0, s, o. auto.
Qed.
Lemma c71_drum_example :
  without raw_write [gm] /\ bent (map message [gm]) 9 40 = 4000 /\ pitched (map message [gm]) 9 40 = 4000 /\
  snd (drum (shipped false) 40) = 39 /\
  exists s0 tr0 s o, history (shipped false) no_cartridge blank_memory [gm] s0 tr0 /\
    history (shipped false) no_cartridge blank_memory ([gm] ++ [AMsg (MNoteOn 9 40 100)]) s (tr0 ++ o) /\
    key_state o 0 = Some true /\ chip_freq (tr0 ++ o) 0 = Some (2, 765).
Proof.
  split; [unfold gm; no_message|]. repeat (split; [vm_compute; reflexivity|]).
  destruct (last_see false [gm] (AMsg (MNoteOn 9 40 100)) (fun _ tr0 _ o => (key_state o 0, chip_freq (tr0 ++ o) 0))
    (Some true, Some (2, 765))) as (s0 & tr0 & s & o & H0 & H & C); [reflexivity|vm_compute; reflexivity|].
  injection C as C1 C2. exists s0, tr0, s, o. auto.
Qed.
(** A bend far below the lowest note. *)
Lemma c71_underflow :
  without raw_write far_bend /\ without remaps far_bend /\ without (is_cc 78) far_bend /\ bent (map message far_bend) 0 5 = - 11500 /\
  exists s0 tr0 s o, history (shipped false) no_cartridge blank_memory far_bend s0 tr0 /\
    history (shipped false) no_cartridge blank_memory (far_bend ++ [AMsg (MNoteOn 0 5 100)]) s (tr0 ++ o) /\
    key_state o 0 = Some true /\ chip_freq (tr0 ++ o) 0 = Some (1, 827).
Proof.
  split; [no_message|]. split; [unfold remaps; no_message|]. split; [no_message|]. split; [vm_compute; reflexivity|].
  destruct (last_see false far_bend (AMsg (MNoteOn 0 5 100)) (fun _ tr0 _ o => (key_state o 0, chip_freq (tr0 ++ o) 0))
    (Some true, Some (1, 827))) as (s0 & tr0 & s & o & H0 & H & C); [reflexivity|vm_compute; reflexivity|].
  injection C as C1 C2. exists s0, tr0, s, o. auto.
Qed.

Definition voice_of (n : Z) (s : app) : option (bool * Z * Z) := option_map (fun d => (d_on d, d_midi d, d_pitch d)) (zget (md_dev (a_midi s)) n).
Lemma voice_is n s a b c : voice_of n s = Some (a, b, c) -> exists d, dev_at (a_midi s) n d /\ d_on d = a /\ d_midi d = b /\ d_pitch d = c.
Proof. unfold voice_of, dev_at. destruct (zget (md_dev (a_midi s)) n) as [d|]; [|discriminate]. intros [= <- <- <-]. eauto. Qed.
Lemma c72_example :
  without raw_write tuned_song /\ without remapping tuned_song /\ without (is_cc 78) tuned_song /\
  exists s0 tr0 s o d, history (shipped false) no_cartridge blank_memory tuned_song s0 tr0 /\
    history (shipped false) no_cartridge blank_memory (tuned_song ++ [AMsg (MBend 0 12288)]) s (tr0 ++ o) /\
    dev_at (a_midi s0) 0 d /\ d_on d = true /\ d_midi d = 0 /\ d_pitch d = 50 /\ key_state tr0 0 = Some true /\
    chip_freq tr0 0 = Some (3, 722) /\ chip_freq (tr0 ++ o) 0 = Some (3, 765).
Proof.
  repeat (split; [no_message|]).
  destruct (last_see false tuned_song (AMsg (MBend 0 12288)) (fun s0 tr0 _ o => (voice_of 0 s0, key_state tr0 0, chip_freq tr0 0, chip_freq (tr0 ++ o) 0))
    (Some (true, 0, 50), Some true, Some (3, 722), Some (3, 765))) as (s0 & tr0 & s & o & H0 & H & C); [reflexivity|vm_compute; reflexivity|].
  injection C as C0 C1 C2 C3. destruct (voice_is _ _ _ _ _ C0) as (d & D1 & D2 & D3 & D4). exists s0, tr0, s, o, d. repeat (split; [assumption|]). assumption.
Qed.
(** A drum is tuned to its own key; a pitch bend by less than a cent moves it to the
    key that was struck. *)
Definition struck : list aop := [gm; AMsg (MNoteOn 9 40 100)].
Lemma c72_drum :
  without raw_write struck /\ without remapping struck /\ without (is_cc 78) struck /\ drums_in_order (map message struck) /\
  bent (map message (struck ++ [AMsg (MBend 9 8200)])) 9 40 = 4000 /\
  fm_note (shipped false) (snd (drum (shipped false) 40)) 0 = (2, 765) /\
  exists s0 tr0 s o d, history (shipped false) no_cartridge blank_memory struck s0 tr0 /\
    history (shipped false) no_cartridge blank_memory (struck ++ [AMsg (MBend 9 8200)]) s (tr0 ++ o) /\
    dev_at (a_midi s0) 0 d /\ d_on d = true /\ d_midi d = 9 /\ d_pitch d = 40 /\
    chip_freq tr0 0 = Some (2, 765) /\ chip_freq (tr0 ++ o) 0 = Some (2, 810).
Proof.
  unfold struck, gm. repeat (split; [no_message|]). split; [unfold drums_in_order; vm_compute; let X := fresh in intros X; discriminate X|].
  repeat (split; [vm_compute; reflexivity|]). fold gm. fold struck.
  destruct (last_see false struck (AMsg (MBend 9 8200)) (fun s0 tr0 _ o => (voice_of 0 s0, chip_freq tr0 0, chip_freq (tr0 ++ o) 0))
    (Some (true, 9, 40), Some (2, 765), Some (2, 810))) as (s0 & tr0 & s & o & H0 & H & C); [reflexivity|vm_compute; reflexivity|].
  injection C as C0 C1 C2. destruct (voice_is _ _ _ _ _ C0) as (d & D1 & D2 & D3 & D4). exists s0, tr0, s, o, d. repeat (split; [assumption|]). assumption.
Qed.
Lemma c48_dacless_example : without (is_cc 78) tuned_song /\ without MidiSpec.odd_envelope tuned_song /\ mem_ok blank_memory /\ Forall aop_ok tuned_song.
Proof.
  split; [no_message|]. split; [|split; [exact blank_memory_ok|apply aops_ok; reflexivity]].
  unfold tuned_song. intros m H (l & E & _). cbn in H. repeat (destruct H as [H|H]; [discriminate H || (injection H as <-; discriminate E)|]). contradiction.
Qed.
