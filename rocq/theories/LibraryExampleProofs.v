(** Witnesses for the statements about stored instruments. *)
From Verif Require Import Base BaseLemmas SynthModel SynthSpec SramModel PsgModel MidiModel RomData.
From Verif Require Import DevModel DevSpec AppModel AppSpec AppProofs AppExampleProofs SoundSpec SoundExampleProofs NoteExampleProofs LibrarySpec LibraryProofs.
From Verif Require PsgSpec MidiSpec.
Import MidiSpec(is_cc, remaps, own_sysex, dev_at, serves, is_sysex_cmd).

(** An instrument unlike the factory's. *)
Definition example_preset : preset :=
  mkPreset 5 6 1 3
    [mkOp 1 2 31 3 10 1 4 5 6 20 0; mkOp 2 3 30 0 11 0 5 6 7 21 8; mkOp 3 4 29 1 12 1 6 7 8 22 9; mkOp 15 7 28 2 31 0 15 31 15 127 15].
Lemma example_preset_ok : preset_ok example_preset.
Proof. unfold preset_ok, example_preset; cbn [p_alg p_fb p_ams p_fms p_ops]. split; [lia|]. split; [lia|]. split; [lia|]. split; [lia|]. split; [reflexivity|]. repeat (constructor; [unfold op_ok; cbn; lia|]). constructor. Qed.
Definition meanwhile : list aop :=
  [AMsg (clear_msg 41); AMsg (store_msg 39 example_preset); AMsg (MProgram 2 40); AMsg (MNoteOn 2 60 100); AMsg (MCc 1 87 12); AFrame].
Ltac not_rewritten :=
  let m := fresh in let H := fresh in let R := fresh in intros m H R; cbn in H;
  repeat (destruct H as [H|H]; [try discriminate H; injection H as <-; destruct R as [R|[(? & R)|[(? & R)|[R|R]]]]; discriminate R|]); contradiction.
Lemma meanwhile_without : without (rewrites 40) meanwhile.
Proof. not_rewritten. Qed.

Lemma see_history pal ops : forallb aop_okb ops = true -> (match app_boot (shipped pal) no_cartridge blank_memory ops with Done _ _ _ => true | Fault _ => false end) = true ->
  exists s tr, history (shipped pal) no_cartridge blank_memory ops s tr.
Proof.
  intros H1 H2. destruct (app_boot (shipped pal) no_cartridge blank_memory ops) as [[] s tr|] eqn:E; [|discriminate]. exists s, tr.
  split; [apply shipped_ok|]. split; [exact blank_memory_ok|]. split; [apply aops_ok, H1|exact E].
Qed.
Definition editing : list aop := [AMsg (MCc 0 7 90)] ++ AMsg (store_msg 40 example_preset) :: meanwhile.
Lemma c45_example : preset_ok example_preset /\ without (rewrites 40) meanwhile /\
  (exists s tr, history (shipped false) no_cartridge blank_memory editing s tr) /\
  preset_data 40 example_preset <> preset_data 40 (nth 40 (rom_presets (shipped false)) no_preset).
Proof.
  split; [exact example_preset_ok|]. split; [exact meanwhile_without|]. split; [apply see_history; vm_compute; reflexivity|].
  vm_compute. intros X. discriminate X.
Qed.
Lemma c45_clear_example : restores 40 (clear_msg 40) /\ restores 40 clear_all_msg /\ restores 40 MReset /\ without (rewrites 40) meanwhile /\
  exists s tr, history (shipped false) no_cartridge blank_memory (editing ++ AMsg (clear_msg 40) :: meanwhile) s tr.
Proof.
  split; [right; left; reflexivity|]. split; [right; right; reflexivity|]. split; [left; reflexivity|]. split; [exact meanwhile_without|].
  apply see_history; vm_compute; reflexivity.
Qed.
(** A channel with an edited sound. *)
Definition edited : list aop := [AMsg (MProgram 3 10); AMsg (MCc 3 14 127); AMsg (MCc 3 16 50); AMsg (MCc 3 43 100)].
Lemma c45_keep_example : without remaps edited /\ without (is_cc 78) edited /\ without raw_write edited /\ without (rewrites 40) meanwhile /\
  (exists s tr, history (shipped false) no_cartridge blank_memory edited s tr /\ chip_alg (ym_regs tr) 3 = Some 7) /\
  exists s tr, history (shipped false) no_cartridge blank_memory (edited ++ AMsg (MCc 3 87 40) :: meanwhile) s tr.
Proof.
  split; [unfold remaps; no_message|]. split; [no_message|]. split; [no_message|]. split; [exact meanwhile_without|]. split; [|apply see_history; vm_compute; reflexivity].
  destruct (last_see false [AMsg (MProgram 3 10); AMsg (MCc 3 14 127); AMsg (MCc 3 16 50)] (AMsg (MCc 3 43 100)) (fun _ tr0 _ o => chip_alg (ym_regs (tr0 ++ o)) 3) (Some 7))
    as (s0 & tr0 & s & o & H0 & H & C); [reflexivity|vm_compute; reflexivity|]. exists s, (tr0 ++ o). split; [exact H|exact C].
Qed.
Definition selecting : list aop := editing ++ [AMsg (MProgram 3 7); AMsg (MProgram 3 40)].
Lemma c73_example : preset_ok example_preset /\ without (rewrites 40) meanwhile /\ without raw_write ([AMsg (MCc 0 7 90)] ++ meanwhile) /\
  exists s tr d, history (shipped false) no_cartridge blank_memory selecting s tr /\ serves (a_midi s) 3 3 d /\ d_ops d = VFm.
Proof.
  split; [exact example_preset_ok|]. split; [exact meanwhile_without|]. split; [no_message|].
  destruct (last_see false (editing ++ [AMsg (MProgram 3 7)]) (AMsg (MProgram 3 40))
    (fun _ _ s _ => match zget (md_dev (a_midi s)) 3 with Some d => (d_midi d =? 3) && vt_eqb (d_ops d) VFm | None => false end) true)
    as (s0 & tr0 & s & o & H0 & H & C); [reflexivity|vm_compute; reflexivity|].
  destruct (zget (md_dev (a_midi s)) 3) as [d|] eqn:E; [|discriminate]. apply andb_prop in C as [C1 C2]. apply Z.eqb_eq in C1.
  exists s, (tr0 ++ o), d. split; [unfold selecting; rewrite app_assoc in H || idtac; rewrite <- app_assoc in H; exact H|]. split; [split; [exact E|exact C1]|]. destruct (d_ops d); discriminate C2 || reflexivity.
Qed.
(** The first program, which every channel is at after power-on, stored and selected. *)
Definition reselecting : list aop := [AMsg (store_msg 0 example_preset); AMsg (MProgram 3 0)].
Lemma c73_reselect : without raw_write reselecting /\ preset_ok example_preset /\
  exists s tr, history (shipped false) no_cartridge blank_memory reselecting s tr /\
    history (shipped false) no_cartridge blank_memory (reselecting ++ [AMsg (dump_msg 0)]) s (tr ++ reply 14 (preset_data 0 example_preset)) /\
    ~ plays_preset (ym_regs tr) 3 example_preset /\ chip_alg (ym_regs tr) 3 <> Some 5.
Proof.
  split; [no_message|]. split; [exact example_preset_ok|].
  destruct (last_see false [AMsg (store_msg 0 example_preset)] (AMsg (MProgram 3 0)) (fun _ tr0 _ o => match chip_alg (ym_regs (tr0 ++ o)) 3 with Some 5 => true | _ => false end) false)
    as (s0 & tr0 & s & o & H0 & H & C); [reflexivity|vm_compute; reflexivity|]. exists s, (tr0 ++ o). split; [exact H|].
  assert (A : chip_alg (ym_regs (tr0 ++ o)) 3 <> Some 5) by (intros E; rewrite E in C; discriminate C).
  split; [|split; [intros (P & _); exact (A P)|exact A]].
  apply (stored_dumped (shipped false) no_cartridge blank_memory [] 0 example_preset [AMsg (MProgram 3 0)] s (tr0 ++ o)); [unfold seven; lia|exact example_preset_ok|not_rewritten|exact H].
Qed.
