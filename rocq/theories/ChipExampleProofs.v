(** Witnesses for what one message writes to the chips. *)
From Verif Require Import Base BaseLemmas SynthModel SynthSpec MidiModel RomData DevModel DevSpec AppModel AppSpec AppProofs AppExampleProofs.
From Verif Require Import SoundSpec SoundExampleProofs.
From Verif Require MidiSpec.
Import MidiSpec.

Definition of_fmb (n : Z) (e : event) : bool :=
  match e with EvYm p g d => match owner g d p with Some k => k =? n | None => false end | _ => false end.
Lemma of_fmb_ok n e : of_fmb n e = true -> of_fm n e.
Proof. unfold of_fmb, of_fm. destruct e; try discriminate. destruct (owner _ _ _); [|discriminate]. intros H. f_equal. lia. Qed.
Definition of_psgb (n : Z) (e : event) : bool := match e with EvPsgTone c _ | EvPsgAtt c _ => c =? n | _ => false end.
Lemma of_psgb_ok n e : of_psgb n e = true -> of_psg n e.
Proof. unfold of_psgb, of_psg. destruct e; try discriminate; intros H; lia. Qed.

(** The state before a message and whether it makes some write. *)
Definition last_gen (x : res app unit) (next : app -> res app unit) (f : midi -> bool) (g : event -> bool) : bool :=
  match x with
  | Done _ s0 _ => match next s0 with Done _ _ o => f (a_midi s0) && existsb g o | Fault _ => false end
  | Fault _ => false
  end.
Lemma last_gen_ok x next f g : last_gen x next f g = true ->
  exists s0 tr0 s o, x = Done tt s0 tr0 /\ next s0 = Done tt s o /\ f (a_midi s0) = true /\ exists e, In e o /\ g e = true.
Proof.
  unfold last_gen. destruct x as [[] s0 tr0|]; [|discriminate]. destruct (next s0) as [[] s o|] eqn:E; [|discriminate].
  intros H. apply andb_prop in H as [H1 H2]. apply existsb_exists in H2. exists s0, tr0, s, o. auto.
Qed.
Lemma see_any r hw mem ops m (f : midi -> bool) (g : event -> bool) : rom_ok r -> mem_ok mem ->
  forallb aop_okb (ops ++ [AMsg m]) = true -> last_gen (app_boot r hw mem ops) (app_step r (AMsg m)) f g = true ->
  exists s0 tr0 s o, history r hw mem ops s0 tr0 /\
    history r hw mem (ops ++ [AMsg m]) s (tr0 ++ o) /\ f (a_midi s0) = true /\ exists e, In e o /\ g e = true.
Proof.
  intros Hr Hm H1 H2. apply aops_ok in H1. apply Forall_app in H1 as [H1 H3].
  destruct (last_gen_ok _ _ f g H2) as (s0 & tr0 & s & o & E0 & E1 & H4).
  assert (K0 : history r hw mem ops s0 tr0) by (repeat (split; [assumption|]); exact E0).
  exists s0, tr0, s, o. split; [exact K0|]. split; [exact (history_snoc _ _ _ _ _ _ _ _ _ K0 (Forall_inv H3) E1)|]. exact H4.
Qed.
Definition see_last ops m f g := see_any (shipped false) no_cartridge blank_memory ops m f g (shipped_ok false) blank_memory_ok.

(** Two notes sound; the volume of one changes. *)
Definition duet : list aop := [AMsg (MNoteOn 0 60 100); AMsg (MNoteOn 1 64 100)].
Definition busy (i c : Z) (s : midi) : bool := match zget (md_dev s) i with Some d => (d_midi d =? c) && d_on d | None => false end.
Lemma busy_ok i c s : busy i c s = true -> exists d, dev_at s i d /\ d_midi d = c /\ d_on d = true.
Proof.
  unfold busy, dev_at. destruct (zget (md_dev s) i) as [d|]; [|discriminate]. intros H. apply andb_prop in H as [H1 H2]. exists d. split; [reflexivity|]. split; [lia|exact H2].
Qed.
Lemma chip_example : without remaps duet /\ note_or_setting 1 (MCc 1 7 20) /\ exists s0 tr0 s o d,
  history (shipped false) no_cartridge blank_memory duet s0 tr0 /\
  history (shipped false) no_cartridge blank_memory (duet ++ [AMsg (MCc 1 7 20)]) s (tr0 ++ o) /\
  dev_at (a_midi s0) 0 d /\ ~ open_to (a_midi s0) (MCc 1 7 20) 1 0 d /\ d_on d = true /\ exists e, In e o /\ of_fm 1 e.
Proof.
  split.
  { intros m H. cbn in H. destruct H as [H|[H|[]]]; injection H as <-; intros X; cbn in X; repeat destruct X as [X|X]; try destruct X as (? & ? & X); try discriminate X; firstorder discriminate. }
  split; [right; right; left; exists 7, 20; split; [reflexivity|left; reflexivity]|].
  destruct (see_last duet (MCc 1 7 20) (busy 0 0) (of_fmb 1)) as (s0 & tr0 & s & o & K0 & K & B & e & He & Hg).
  - reflexivity.
  - vm_compute. reflexivity.
  - destruct (busy_ok _ _ _ B) as (d & Hd & H1 & H2). exists s0, tr0, s, o, d. repeat (split; [assumption|]). split.
    + intros [H|(_ & _ & H & _)]; [lia|congruence].
    + split; [exact H2|]. exists e. split; [exact He|apply of_fmb_ok, Hg].
Qed.

(** The algorithm controller on MIDI channel 7, which drives a PSG tone, rewrites FM channel 1. *)
Lemma chip_alg_example : exists s0 tr0 s o d e,
  history (shipped false) no_cartridge blank_memory [AMsg (MNoteOn 0 60 100)] s0 tr0 /\
  history (shipped false) no_cartridge blank_memory ([AMsg (MNoteOn 0 60 100)] ++ [AMsg (MCc 6 14 3)]) s (tr0 ++ o) /\
  dev_at (a_midi s0) 0 d /\ d_midi d = 0 /\ d_on d = true /\ In e o /\ of_fm 0 e.
Proof.
  destruct (see_last [AMsg (MNoteOn 0 60 100)] (MCc 6 14 3) (busy 0 0) (of_fmb 0)) as (s0 & tr0 & s & o & K0 & K & B & e & He & Hg).
  - reflexivity.
  - vm_compute. reflexivity.
  - destruct (busy_ok _ _ _ B) as (d & Hd & H1 & H2). exists s0, tr0, s, o, d, e. repeat (split; [assumption|]). apply of_fmb_ok, Hg.
Qed.
(** A note on MIDI channel 12, the second special mode voice, changes the level of FM channel 3's second operator,
    which is a carrier of instrument 20. *)
Definition organ : list aop := [AMsg (MProgram 2 19); AMsg (MNoteOn 2 60 100)].
Lemma chip_special_example : exists s0 tr0 s o d e,
  history (shipped false) no_cartridge blank_memory organ s0 tr0 /\
  history (shipped false) no_cartridge blank_memory (organ ++ [AMsg (MNoteOn 11 60 30)]) s (tr0 ++ o) /\
  dev_at (a_midi s0) 2 d /\ d_midi d = 2 /\ d_on d = true /\ In e o /\ of_fm 2 e.
Proof.
  destruct (see_last organ (MNoteOn 11 60 30) (busy 2 2) (of_fmb 2)) as (s0 & tr0 & s & o & K0 & K & B & e & He & Hg).
  - reflexivity.
  - vm_compute. reflexivity.
  - destruct (busy_ok _ _ _ B) as (d & Hd & H1 & H2). exists s0, tr0, s, o, d, e. repeat (split; [assumption|]). apply of_fmb_ok, Hg.
Qed.
(** Released keys. *)
Lemma released_example :
  without raw_write duet /\ without (is_cc 78) duet /\ without (is_cc 65) duet /\ without remapping duet /\
  exists s tr, history (shipped false) no_cartridge blank_memory (duet ++ [AMsg (MNoteOff 1 64)]) s tr /\
    key_state tr 0 = Some true /\ key_state tr 1 = Some false.
Proof.
  split; [no_message|]. split; [no_message|]. split; [no_message|]. split; [no_message|].
  destruct (app_see false (duet ++ [AMsg (MNoteOff 1 64)])
    (fun s tr => (key_state tr 0, key_state tr 1)) (Some true, Some false)) as (s & tr & H & C);
    [reflexivity|vm_compute; reflexivity|].
  injection C as C1 C2. exists s, tr. auto.
Qed.
(** All Notes Off on channel 1 of the duet. *)
Lemma panic_example : exists s tr d,
  history (shipped false) no_cartridge blank_memory (duet ++ [AMsg (MCc 1 123 0)]) s tr /\
  key_state tr 0 = Some true /\ dev_at (a_midi s) 1 d /\ d_midi d = 1.
Proof.
  destruct (app_see false (duet ++ [AMsg (MCc 1 123 0)])
    (fun s tr => (option_map d_midi (zget (md_dev (a_midi s)) 1), key_state tr 0)) (Some 1, Some true)) as (s & tr & H & C);
    [reflexivity|vm_compute; reflexivity|].
  destruct (zget (md_dev (a_midi s)) 1) as [d|] eqn:E; [|discriminate C]. injection C as C1 C2. exists s, tr, d. auto.
Qed.
Definition solo : list aop := duet ++ [AMsg (MNoteOff 1 64)].
Lemma held_example :
  without raw_write solo /\ without (is_cc 78) solo /\ without (is_cc 65) solo /\ without remapping solo /\
  held (map message solo) = [(0, 60)] /\
  exists s tr, history (shipped false) no_cartridge blank_memory solo s tr /\
    key_state tr 0 = Some true /\ key_state tr 1 = Some false.
Proof.
  split; [no_message|]. split; [no_message|]. split; [no_message|]. split; [no_message|]. split; [reflexivity|].
  destruct released_example as (_ & _ & _ & _ & H). exact H.
Qed.
