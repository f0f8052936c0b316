(** Which controllers have no immediate effect. *)
From Verif Require Import Base MidiSpec.

(** Portamento time, expression, hold, portamento, fine tuning, the choice of a
    device and the selection of a parameter; and data entry while the selected
    parameter is not the bend range. *)
Definition stored_only (t : setting) (k : Z) : Prop :=
  In k [5; 11; 64; 65; 85; 86; 98; 99; 100; 101] \/ (k = 6 \/ k = 38) /\ range_selected t = false.
