(** Concrete chords in dynamic mode. *)
From Verif Require Import Base MidiModel MidiSpec SynthModel SynthSpec SoundSpec DevModel DevSpec AppModel AppSpec AppExampleProofs SoundExampleProofs NoteExampleProofs ChordSpec.

Fixpoint each (P : list mop -> mop -> Prop) (ms : list mop) (play : list aop) : Prop :=
  match play with [] => True | op :: t => P ms (message op) /\ each P (ms ++ [message op]) t end.
Lemma each_split P play : forall ms, each P ms play -> forall a op b, play = a ++ op :: b -> P (ms ++ map message a) (message op).
Proof.
  induction play as [|o t IH]; intros ms H a op b E; [destruct a; discriminate|]. destruct H as [H1 H2]. destruct a as [|x a]; injection E as -> E.
  - rewrite app_nil_r. exact H1.
  - cbn [map]. specialize (IH _ H2 a op b E). rewrite <- app_assoc in IH. exact IH.
Qed.
Ltac fresh_key := right; (split; [intros _; vm_compute; lia|]); (split; [vm_compute; intuition congruence|]); vm_compute; repeat split; try lia; try (intros X; discriminate X).
Ltac each_msg := cbv beta; cbn [message chord_msg]; first [exact Logic.I | lia | fresh_key | reflexivity].
Ltac each_all := cbn [each]; repeat (split; [each_msg|]); exact Logic.I.

(** A triad that is bent, loses a key and gets another, over a square wave of another
    channel and two drums. *)
Definition on : mop := own_sysex 3 [1].
Definition triad : list aop :=
  [AMsg (MCc 0 86 40); AMsg (MProgram 1 80); AMsg (MProgram 9 16); AMsg (MNoteOn 0 60 100); AMsg (MNoteOn 0 64 100); AMsg (MNoteOn 1 40 90); AMsg (MNoteOn 9 36 110); AFrame; AMsg (MNoteOn 0 67 100); AMsg (MNoteOff 9 36); AMsg (MNoteOn 9 42 70);
   AMsg (MBend 0 9000); AMsg (MNoteOff 0 64); AFrame; AMsg (MNoteOn 0 65 80)].
Lemma triad_example : Forall aop_ok (AMsg on :: triad) /\ asks_dynamic on /\ chords on triad /\
  let ms := on :: map message triad in held ms = [(0, 65); (9, 42); (0, 67); (1, 40); (0, 60)] /\ map (fun k => pitched ms 0 k) [60; 67; 65] = [6019; 6719; 6519].
Proof.
  split; [apply aops_ok; vm_compute; reflexivity|]. split; [left; exists 1; split; [reflexivity|lia]|]. split.
  - intros a op b E. apply (each_split chord_msg triad [on]) with (b := b); [|exact E]. clear. unfold triad. each_all.
  - split; vm_compute; reflexivity.
Qed.

(** The same after a General MIDI reset, with the velocity of every key. *)
Definition gm : mop := MSysex [0x7E; 0x7F; 0x09; 0x01].
Lemma gm_example : Forall aop_ok (AMsg gm :: triad) /\ gm_reset_msg gm /\ chords gm triad /\ without sm_note triad /\ steady_drums gm triad /\
  let ms := gm :: map message triad in held ms = [(0, 65); (9, 42); (0, 67); (1, 40); (0, 60)] /\ map (struck ms) (held ms) = [80; 70; 100; 90; 100] /\
  bent ms 9 42 = 4200 /\ pitched ms 9 42 = 4200 /\ snd (drum (shipped false) 42) = 70.
Proof.
  split; [apply aops_ok; vm_compute; reflexivity|]. split; [exists []; reflexivity|]. split; [|split].
  - intros a op b E. apply (each_split chord_msg triad [gm]) with (b := b); [|exact E]. clear. unfold triad. each_all.
  - intros m Hin (c & p & v & -> & Hc). cbn in Hin. repeat (destruct Hin as [[= <- <- <-]|Hin] || destruct Hin as [Hin|Hin]; try discriminate Hin); try lia; contradiction.
  - split.
    + intros a op b x E Hm. assert (X : each (fun ms m => m = MProgram 9 x \/ m = MBend 9 x -> forall k, ~ In (9, k) (held ms)) [gm] triad).
      { clear. unfold triad. cbn [each message]. repeat (split; [first [intros [[=]|[=]]; fail | intros _ k; vm_compute; tauto]|]). exact Logic.I. }
      exact (each_split _ triad [gm] X a op b E Hm).
    + repeat (split; [vm_compute; reflexivity|]). vm_compute. reflexivity.
Qed.

(** On channels that select FM. *)
Definition choir : list aop :=
  [AMsg (MCc 0 86 40); AMsg (MCc 2 86 63); AMsg (MNoteOn 0 60 100); AMsg (MNoteOn 0 64 100); AMsg (MNoteOn 2 43 90); AFrame; AMsg (MNoteOff 0 60); AMsg (MNoteOn 2 31 90)].
Lemma fm_each start play : each (fun ms m => match m with MNoteOn c k v => v <> 0 -> group ms c = 1 /\ ~ In (st_prog (settings ms c)) [80; 89; 99] | _ => True end) [start] play -> fm_only start play.
Proof. intros H a c k v b E Hv. exact (each_split _ _ _ H a _ b E Hv). Qed.
Lemma choir_example : Forall aop_ok (AMsg on :: choir) /\ chords on choir /\ fm_only on choir /\ held (on :: map message choir) = [(2, 31); (2, 43); (0, 64)].
Proof.
  split; [apply aops_ok; vm_compute; reflexivity|]. split.
  - intros a op b E. apply (each_split chord_msg choir [on]) with (b := b); [|exact E]. clear. unfold choir. each_all.
  - split; [|vm_compute; reflexivity]. apply fm_each. unfold choir. cbn [each message].
    repeat (split; [first [exact Logic.I | intros _; vm_compute; intuition congruence]|]). exact Logic.I.
Qed.

(** With portamento, the second key of a chord is lost. *)
Definition lost : list aop :=
  [AMsg (MCc 0 86 40); AMsg (MCc 0 65 127); AMsg (MNoteOn 0 60 100); AMsg (MNoteOff 0 60); AMsg (MNoteOn 0 62 100); AMsg (MNoteOn 0 66 100); AFrame].
Lemma lost_key : exists s tr, history (shipped false) no_cartridge blank_memory (AMsg on :: lost) s tr /\
  held (on :: map message lost) = [(0, 66); (0, 62)] /\ map (key_state tr) [0; 1; 2; 3; 4; 5] = [Some true; Some false; Some false; Some false; Some false; Some false].
Proof.
  destruct (app_see false (AMsg on :: lost) (fun _ tr => map (key_state tr) [0; 1; 2; 3; 4; 5]) [Some true; Some false; Some false; Some false; Some false; Some false]) as (s & tr & H & E);
    [reflexivity|vm_compute; reflexivity|]. exists s, tr. split; [exact H|]. split; [reflexivity|exact E].
Qed.
Lemma gliding_refuted : ~ forall r hw mem start play s tr x y, asks_dynamic start -> Forall aop_ok (AMsg start :: play) -> gliding_chords start play -> fm_only start play ->
  history r hw mem (AMsg start :: play) s tr -> In x (held (start :: map message play)) -> In y (held (start :: map message play)) -> x <> y ->
  exists n m, 0 <= n < 6 /\ 0 <= m < 6 /\ n <> m /\ key_state tr n = Some true /\ key_state tr m = Some true.
Proof.
  intros X. destruct lost_key as (s & tr & H & Eh & K). cbn [map] in K. injection K as K0 K1 K2 K3 K4 K5.
  destruct (X (shipped false) no_cartridge blank_memory on lost s tr (0, 66) (0, 62)) as (n & m & Hn & Hm & N & Kn & Km).
  - left. exists 1. split; [reflexivity|lia].
  - apply aops_ok. vm_compute. reflexivity.
  - intros a op b E. apply (each_split (fun ms m => chord_msg ms m \/ is_cc 65 m) lost [on]) with (b := b); [|exact E]. clear. unfold lost. cbn [each message].
    repeat (split; [first [right; exists 0, 127; reflexivity | left; each_msg]|]). exact Logic.I.
  - apply fm_each. unfold lost. cbn [each message]. repeat (split; [first [exact Logic.I | intros _; vm_compute; intuition congruence]|]). exact Logic.I.
  - exact H.
  - rewrite Eh. left. reflexivity.
  - rewrite Eh. right. left. reflexivity.
  - discriminate.
  - assert (Z0 : forall j, 0 <= j < 6 -> key_state tr j = Some true -> j = 0).
    { intros j Hj Kj. assert (j = 0 \/ j = 1 \/ j = 2 \/ j = 3 \/ j = 4 \/ j = 5) as [->|[->|[->|[->|[->| ->]]]]] by lia; congruence. }
    apply N. rewrite (Z0 n Hn Kn), (Z0 m Hm Km). reflexivity.
Qed.

(** The lost key leaves its mark on the voice it was meant for: a key of another channel
    that gets this voice cannot be released. *)
Definition stuck : list aop :=
  [AMsg (MCc 0 86 40); AMsg (MCc 1 86 40); AMsg (MCc 0 65 127); AMsg (MNoteOn 0 60 100); AMsg (MNoteOff 0 60); AMsg (MNoteOn 0 62 100); AMsg (MNoteOn 0 66 100);
   AMsg (MNoteOn 1 50 100); AMsg (MNoteOff 1 50); AMsg (MNoteOff 0 66); AMsg (MNoteOff 0 62); AFrame].
Lemma stuck_key : exists s tr, history (shipped false) no_cartridge blank_memory (AMsg on :: stuck) s tr /\
  held (on :: map message stuck) = [] /\ key_state tr 1 = Some true.
Proof.
  destruct (app_see false (AMsg on :: stuck) (fun _ tr => key_state tr 1) (Some true)) as (s & tr & H & E); [reflexivity|vm_compute; reflexivity|].
  exists s, tr. split; [exact H|]. split; [reflexivity|exact E].
Qed.
Lemma silence_refuted : ~ forall r hw mem start play s tr n, asks_dynamic start -> Forall aop_ok (AMsg start :: play) -> gliding_chords start play -> fm_only start play ->
  history r hw mem (AMsg start :: play) s tr -> held (start :: map message play) = [] -> 0 <= n < 6 -> key_state tr n <> Some true.
Proof.
  intros X. destruct stuck_key as (s & tr & H & Eh & K). apply (X (shipped false) no_cartridge blank_memory on stuck s tr 1); [| | | |exact H|exact Eh|lia|exact K].
  - left. exists 1. split; [reflexivity|lia].
  - apply aops_ok. vm_compute. reflexivity.
  - intros a op b E. apply (each_split (fun ms m => chord_msg ms m \/ is_cc 65 m) stuck [on]) with (b := b); [|exact E]. clear. unfold stuck. cbn [each message].
    repeat (split; [first [right; exists 0, 127; reflexivity | left; each_msg]|]). exact Logic.I.
  - apply fm_each. unfold stuck. cbn [each message]. repeat (split; [first [exact Logic.I | intros _; vm_compute; intuition congruence]|]). exact Logic.I.
Qed.

(** A program change for the drum channel replaces the instrument of a sounding drum. *)
Definition rekit : list aop := [AMsg (MNoteOn 9 36 110); AMsg (MProgram 9 5); AFrame].
Lemma rekit_drum : exists s tr, history (shipped false) no_cartridge blank_memory (AMsg gm :: rekit) s tr /\
  held (gm :: map message rekit) = [(9, 36)] /\ (map (key_state tr) [0; 1; 2; 3; 4; 5], chip_alg (ym_regs tr) 0) =
    ([Some true; Some false; Some false; Some false; Some false; Some false], Some 7).
Proof.
  destruct (app_see false (AMsg gm :: rekit) (fun _ tr => (map (key_state tr) [0; 1; 2; 3; 4; 5], chip_alg (ym_regs tr) 0)) ([Some true; Some false; Some false; Some false; Some false; Some false], Some 7)) as (s & tr & H & E);
    [reflexivity|vm_compute; reflexivity|]. exists s, tr. split; [exact H|]. split; [reflexivity|exact E].
Qed.
Lemma drum_refuted : ~ forall r hw mem start play s tr k, gm_reset_msg start -> Forall aop_ok (AMsg start :: play) -> chords start play ->
  history r hw mem (AMsg start :: play) s tr -> let ms := start :: map message play in In (9, k) (held ms) ->
  exists n, 0 <= n < 6 /\ key_state tr n = Some true /\ plays_preset (ym_regs tr) n (fst (drum r (pitched ms 9 k / 100))).
Proof.
  intros X. destruct rekit_drum as (s & tr & H & Eh & E). cbn [map] in E. injection E as K0 K1 K2 K3 K4 K5 Ea.
  destruct (X (shipped false) no_cartridge blank_memory gm rekit s tr 36) as (n & Hn & Kn & P & _).
  - exists []. reflexivity.
  - apply aops_ok. vm_compute. reflexivity.
  - intros a op b E. apply (each_split chord_msg rekit [gm]) with (b := b); [|exact E]. clear. unfold rekit. each_all.
  - exact H.
  - rewrite Eh. left. reflexivity.
  - assert (n = 0) as -> by (assert (n = 0 \/ n = 1 \/ n = 2 \/ n = 3 \/ n = 4 \/ n = 5) as [->|[->|[->|[->|[->| ->]]]]] by lia; congruence).
    rewrite Ea in P. vm_compute in P. discriminate P.
Qed.
