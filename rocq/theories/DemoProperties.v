(** Properties of demo mode. *)
From Verif Require Import Base RingBufModel MidiModel DemoModel DemoSpec DemoProofs.

(** ** C61 *)
(** For every controller history in which the pad is never pressed both ways at
    once: no failure, only playable messages, and never two notes at a time.
    Missing: opposite directions together. *)
Theorem C61_playable_partial : forall arr l,
  (24 <= length arr)%nat -> Forall turn_ok l ->
  exists ops s' y, demo_run l (demo_init arr) = Done ops s' [] /\ Forall playable ops /\ one_note None ops = Some y.
Proof. exact c61. Qed.
Print Assumptions C61_playable_partial.
(** With opposite directions the queue overflows inside a message and the
    interface hangs. *)
Theorem C61_refuted :
  ~ (forall l, exists ops s' o, demo_run l (demo_init (repeat 0 24)) = Done ops s' o).
Proof. exact c61_refuted. Qed.
Print Assumptions C61_refuted.
Example C61_nonvacuous :
  Forall turn_ok [Turn 0 true 0; Turn 0x40 true 0x40; Turn 0x40 true 0x59; Turn 0 true 0; Turn 0 false 0] /\
  exists s',
  demo_run [Turn 0 true 0; Turn 0x40 true 0x40; Turn 0x40 true 0x59; Turn 0 true 0; Turn 0 false 0] (demo_init (repeat 0 24))
  = Done [MCc 0 83 127; MNoteOn 0 69 127; MNoteOff 0 69; MNoteOn 0 69 127;
          MNoteOff 0 69; MNoteOn 0 70 127; MNoteOff 0 70; MProgram 0 1; MNoteOn 0 70 127;
          MNoteOff 0 70; MNoteOn 0 70 127; MNoteOff 0 70] s' [].
Proof. split; [repeat constructor|exact c61_example]. Qed.
