(** Concrete lines with portamento. *)
From Verif Require Import Base MidiModel MidiSpec SynthSpec SoundSpec DevSpec AppModel AppSpec AppExampleProofs SoundExampleProofs NoteExampleProofs GlideSpec.

(** Up a fifth and back, with a bend and another channel's note in between. *)
Definition slow : list aop := [AMsg (MCc 0 65 127); AMsg (MCc 0 5 64)].
Definition sung : list aop :=
  [AFrame; AMsg (MNoteOn 0 67 90); AFrame; AFrame; AMsg (MBend 0 9000); AFrame; AMsg (MNoteOn 1 50 100); AFrame; AFrame; AMsg (MNoteOff 0 67); AFrame].
Lemma sung_example : Forall aop_ok (slow ++ AMsg (MNoteOn 0 60 100) :: sung) /\
  without raw_write slow /\ without remaps slow /\ without (is_cc 78) slow /\ without odd_envelope slow /\
  tn_glide (tuned (map message slow)) 0 = true /\ held (map message slow) = [] /\ speed (map message slow) 0 = 47 /\
  bent (map message slow) 0 60 = 6000 /\ pitched (map message slow) 0 60 = 6000 /\
  legato_all 47 0 (mkLine [60] 6000) sung /\ line_played 47 0 60 sung = mkLine [60] 6188 /\ released 60 [60] = [] /\
  let ms := map message (slow ++ AMsg (MNoteOn 0 60 100) :: sung) in line_bent ms 0 6188 = 6207 /\ line_pitch ms 0 6188 = 6207.
Proof.
  split; [apply aops_ok; vm_compute; reflexivity|]. split; [no_message|]. split; [unfold remaps; no_message|]. split; [no_message|].
  split; [intros m [[= <-]|[[= <-]|[]]] (l & [=] & _)|]. do 5 (split; [vm_compute; reflexivity|]). split.
  { cbn [legato_all sung legato]. repeat (split; [exact Logic.I || (intros _; vm_compute; repeat split; discriminate || lia) || (intros; lia)|]). exact Logic.I. }
  repeat split; vm_compute; reflexivity.
Qed.

(** The older of two keys is let go, then a third is pressed: it is struck, although the
    second is still down. *)
Definition walked : list aop := [AMsg (MCc 0 65 127); AMsg (MNoteOn 0 60 100); AMsg (MNoteOn 0 64 100); AMsg (MNoteOff 0 60)].
Lemma walked_struck : exists s0 tr0 s o, history (shipped false) no_cartridge blank_memory walked s0 tr0 /\
  history (shipped false) no_cartridge blank_memory (walked ++ [AMsg (MNoteOn 0 67 100)]) s (tr0 ++ o) /\ key_state tr0 0 = Some true /\ key_state o 0 = Some true.
Proof.
  destruct (last_see false walked (AMsg (MNoteOn 0 67 100)) (fun _ tr0 _ o => (key_state tr0 0, key_state o 0)) (Some true, Some true)) as (s0 & tr0 & s & o & H0 & H & E);
    [reflexivity|vm_compute; reflexivity|]. injection E as E1 E2. eauto 10.
Qed.
Lemma legato_refuted : ~ forall r hw mem ops c p v s0 tr0 s o, 0 <= c < 6 -> 12 <= p -> 0 < v ->
  history r hw mem ops s0 tr0 -> history r hw mem (ops ++ [AMsg (MNoteOn c p v)]) s (tr0 ++ o) ->
  without raw_write ops -> without remaps ops -> without (is_cc 78) ops -> tn_glide (tuned (map message ops)) c = true ->
  (exists k, In (c, k) (held (map message ops)) /\ 12 <= k) -> key_state tr0 c = Some true -> key_state o c = None.
Proof.
  intros X. destruct walked_struck as (s0 & tr0 & s & o & H0 & H & K0 & K).
  enough (key_state o 0 = None) by congruence.
  eapply (X _ _ _ walked 0 67 100 s0 tr0 s o); [lia..|exact H0|exact H|no_message|unfold remaps; no_message|no_message|vm_compute; reflexivity|exists 64; split; [vm_compute; tauto|lia]|exact K0].
Qed.

(** One cent a frame, a semitone down: the first frame covers it all. *)
Definition creeping : list aop := [AMsg (MCc 0 65 127); AMsg (MCc 0 5 127); AMsg (MNoteOn 0 61 100); AMsg (MNoteOn 0 60 100)].
Lemma creeping_jumps : speed (map message creeping) 0 = 1 /\ exists s0 tr0 s o, history (shipped false) no_cartridge blank_memory creeping s0 tr0 /\
  history (shipped false) no_cartridge blank_memory (creeping ++ [AFrame]) s (tr0 ++ o) /\
  chip_freq tr0 0 = Some (fm_note (shipped false) 61 0) /\ chip_freq (tr0 ++ o) 0 = Some (fm_note (shipped false) 60 0) /\
  fm_note (shipped false) 61 0 <> fm_note (shipped false) 60 0.
Proof.
  split; [vm_compute; reflexivity|].
  destruct (last_see false creeping AFrame (fun _ tr0 _ o => (chip_freq tr0 0, chip_freq (tr0 ++ o) 0)) (Some (fm_note (shipped false) 61 0), Some (fm_note (shipped false) 60 0))) as (s0 & tr0 & s & o & H0 & H & E);
    [reflexivity|vm_compute; reflexivity|]. injection E as E1 E2. exists s0, tr0, s, o. repeat (split; [assumption|]). vm_compute. intros Y. discriminate Y.
Qed.
