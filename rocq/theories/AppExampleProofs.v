(** The ROM as shipped is well-formed; witnesses for statements about histories
    of the shipped program. *)
From Verif Require Import Base BaseLemmas SynthModel SynthSpec SramModel PsgModel MidiModel RomData.
From Verif Require Import DevModel DevSpec AppModel AppSpec AppProofs.
From Verif Require PsgSpec PsgEnvProofs SramSpec MidiSpec MidiClaimsProofs.

(** The shipped ROM on an NTSC or a PAL machine. *)
Definition shipped (pal : bool) : rom := mkRom pal M_BANK_0 P_BANK_0 ENVELOPES PCM_SAMPLES.

Definition inb (x hi : Z) : bool := (0 <=? x) && (x <? hi).
Definition op_okb (o : operator) : bool :=
  inb (o_mul o) 16 && inb (o_dt o) 8 && inb (o_ar o) 32 && inb (o_rs o) 4 && inb (o_dr o) 32 && inb (o_am o) 2 &&
  inb (o_sl o) 16 && inb (o_sr o) 32 && inb (o_rr o) 16 && inb (o_tl o) 128 && inb (o_ssg o) 16.
Definition preset_okb (p : preset) : bool :=
  inb (p_alg p) 8 && inb (p_fb p) 8 && inb (p_ams p) 4 && inb (p_fms p) 8 && Nat.eqb (length (p_ops p)) 4 && forallb op_okb (p_ops p).
Lemma inb_ok x hi : inb x hi = true -> 0 <= x < hi. Proof. unfold inb. lia. Qed.
Local Opaque inb.
Lemma preset_okb_ok p : preset_okb p = true -> preset_ok p.
Proof.
  unfold preset_okb. intros H. repeat (apply andb_prop in H as [H ?]).
  apply inb_ok in H. repeat match goal with X : inb _ _ = true |- _ => apply inb_ok in X end.
  unfold preset_ok. repeat (split; [assumption|]). split; [apply Nat.eqb_eq; assumption|].
  apply Forall_forall. intros o Ho. match goal with X : forallb _ _ = true |- _ => rewrite forallb_forall in X; specialize (X o Ho); unfold op_okb in X; rename X into Y end.
  repeat (apply andb_prop in Y as [Y ?]). apply inb_ok in Y. repeat match goal with X : inb _ _ = true |- _ => apply inb_ok in X end.
  unfold op_ok. tauto.
Qed.
Local Transparent inb.
Lemma shipped_ok pal : rom_ok (shipped pal).
Proof.
  split; [vm_compute; reflexivity|]. split.
  { apply Forall_forall. intros p Hp. apply preset_okb_ok. revert p Hp. apply forallb_forall. vm_compute. reflexivity. }
  split; [vm_compute; reflexivity|]. split.
  { apply Forall_forall. intros x Hx. assert (B : preset_okb (fst x) && inb (snd x) 128 = true).
    { revert x Hx. apply forallb_forall. vm_compute. reflexivity. }
    apply andb_prop in B as [B1 B2]. split; [apply preset_okb_ok, B1|exact (inb_ok _ _ B2)]. }
  split; [exact PsgEnvProofs.rom_envs_ok|vm_compute; reflexivity].
Qed.

Definition blank_memory : list Z := repeat 255 4640.
Lemma blank_memory_ok : mem_ok blank_memory.
Proof.
  split; [unfold blank_memory; rewrite repeat_length; lia|]. apply Forall_forall. intros x Hx.
  apply repeat_spec in Hx. subst x. unfold SramSpec.is_byte. lia.
Qed.
(** No cartridge answers. *)
Definition no_cartridge : hardware := mkHw 0xFFFF 0xFFFF.

Definition aop_okb (op : aop) : bool := match op with AMsg m => MidiClaimsProofs.mop_okb m | AFrame => true end.
Lemma aops_ok ops : forallb aop_okb ops = true -> Forall aop_ok ops.
Proof.
  intros H. apply Forall_forall. intros op Hop. rewrite forallb_forall in H. specialize (H op Hop).
  destruct op; [apply MidiClaimsProofs.mop_okb_ok; exact H|exact I].
Qed.
Definition app_view {V} (r : rom) (ops : list aop) (view : app -> list event -> V) : option V :=
  match app_boot r no_cartridge blank_memory ops with Done _ s tr => Some (view s tr) | Fault _ => None end.
Lemma app_see {V} pal ops (view : app -> list event -> V) v : forallb aop_okb ops = true -> app_view (shipped pal) ops view = Some v ->
  exists s tr, history (shipped pal) no_cartridge blank_memory ops s tr /\ view s tr = v.
Proof.
  unfold app_view. intros H1 H2.
  destruct (app_boot (shipped pal) no_cartridge blank_memory ops) as [[] s tr|] eqn:E; [|discriminate].
  exists s, tr. split; [|congruence]. split; [apply shipped_ok|]. split; [exact blank_memory_ok|]. split; [apply aops_ok, H1|exact E].
Qed.
Definition faults (r : rom) (ops : list aop) (f : fault) : Prop :=
  Forall aop_ok ops /\ app_boot r no_cartridge blank_memory ops = Fault f.

(** A note far above the last sample, on the DAC. *)
Definition dac_beyond : list aop := [AMsg (MCc 5 78 127); AMsg (MBend 5 16383); AMsg (MNoteOn 5 127 100)].
Definition is_pcm_fault (x : res app unit) : bool := match x with Fault F_pcm => true | _ => false end.
Lemma fault_pcm x : is_pcm_fault x = true -> x = Fault F_pcm.
Proof. destruct x as [? ? ?|[]]; try discriminate. reflexivity. Qed.
Lemma dac_beyond_faults : faults (shipped false) dac_beyond F_pcm.
Proof. split; [apply aops_ok; reflexivity|]. apply fault_pcm. vm_compute. reflexivity. Qed.

Lemma c13_app_example :
  let ops := [AMsg (MCc 0 20 99); AMsg (MProgram 3 41); AMsg (MNoteOn 3 60 100); AFrame; AMsg (MNoteOn 7 70 90)] in
  without raw_write ops /\ without resets ops /\
  exists s tr, history (shipped false) no_cartridge blank_memory ops s tr /\
    chip_mul (ym_regs tr) 0 0 = Some 12 /\ key_state tr 3 = Some true /\ chip_freq tr 3 = Some (4, 644) /\
    PsgSpec.chip_att PsgSpec.att_at_boot tr 1 = 1 /\ PsgSpec.chip_att PsgSpec.att_at_boot tr 0 = 15.
Proof.
  cbv zeta. split; [|split].
  - intros m H [(a & E)|(a & E)]; cbn in H; repeat destruct H as [H|H]; try discriminate; try contradiction; injection H as <-; discriminate.
  - intros m H E. cbn in H. unfold resets in E. subst m. repeat destruct H as [H|H]; try discriminate; contradiction.
  - destruct (app_see false [AMsg (MCc 0 20 99); AMsg (MProgram 3 41); AMsg (MNoteOn 3 60 100); AFrame; AMsg (MNoteOn 7 70 90)]
      (fun s tr => (chip_mul (ym_regs tr) 0 0, key_state tr 3, chip_freq tr 3, PsgSpec.chip_att PsgSpec.att_at_boot tr 1, PsgSpec.chip_att PsgSpec.att_at_boot tr 0))
      (Some 12, Some true, Some (4, 644), 1, 15)) as (s & tr & H & C); [reflexivity|vm_compute; reflexivity|].
    exists s, tr. split; [exact H|]. injection C as -> -> -> -> ->. auto.
Qed.

(** An envelope upload with an odd number of nibbles. *)
Definition odd_upload : list aop := [AMsg (MNoteOn 6 60 100); AMsg (MSysex [0x00; 0x22; 0x77; 0x06; 0x01; 0x02; 0x03])].
Definition is_uninit_fault (x : res app unit) : bool := match x with Fault F_uninit => true | _ => false end.
Lemma fault_uninit x : is_uninit_fault x = true -> x = Fault F_uninit.
Proof. destruct x as [? ? ?|[]]; try discriminate. reflexivity. Qed.
Lemma odd_upload_faults : faults (shipped false) odd_upload F_uninit.
Proof. split; [apply aops_ok; reflexivity|]. apply fault_uninit. vm_compute. reflexivity. Qed.
Lemma c48_app_refuted : exists ops f, faults (shipped false) ops f.
Proof. exists dac_beyond, F_pcm. exact dac_beyond_faults. Qed.
Lemma c27_app_refuted :
  exists s tr, history (shipped false) no_cartridge blank_memory [AMsg (MNoteOn 6 69 100); AFrame; AMsg MReset] s tr /\
    option_map g_on (zget (ps_chans (v_psg (a_dev s))) 0) = Some false /\ PsgSpec.chip_att PsgSpec.att_at_boot tr 0 = 1.
Proof.
  destruct (app_see false [AMsg (MNoteOn 6 69 100); AFrame; AMsg MReset]
    (fun s tr => (option_map g_on (zget (ps_chans (v_psg (a_dev s))) 0), PsgSpec.chip_att PsgSpec.att_at_boot tr 0))
    (Some false, 1)) as (s & tr & H & C); [reflexivity|vm_compute; reflexivity|].
  exists s, tr. split; [exact H|]. injection C as -> ->. auto.
Qed.
Lemma c22_app_example :
  let ops := [AMsg (MProgram 3 41); AMsg (MNoteOn 3 60 100); AFrame] in
  without stores ops /\ exists s tr, history (shipped false) no_cartridge blank_memory ops s tr /\ key_state tr 3 = Some true.
Proof.
  cbv zeta. split.
  - intros m H [(a & b & E)|(a & E)]; cbn in H; repeat destruct H as [H|H]; try discriminate; try contradiction; injection H as <-; discriminate.
  - destruct (app_see false [AMsg (MProgram 3 41); AMsg (MNoteOn 3 60 100); AFrame] (fun s tr => key_state tr 3) (Some true)) as (s & tr & H & C);
      [reflexivity|vm_compute; reflexivity|]. exists s, tr. auto.
Qed.
