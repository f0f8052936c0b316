(** Which voice of the sound chips a write belongs to. *)
From Verif Require Import Base SynthModel SynthSpec MidiModel SoundSpec.

(** FM: a register of FM channel [n].  PSG: the tone or the level of PSG channel [n].
    Special mode: the level of operator [n] of FM channel 3, or its frequency.  The sample
    voice writes to neither chip.  Other events are not writes to the chips. *)
Definition of_voice (v : vtable) (n : Z) (e : event) : Prop :=
  match e with
  | EvYm p g d =>
      v = VFm /\ of_fm n e \/
      v = VSm /\ (of_fm 2 e /\ owner_op g = Some n \/ p = 0 /\ (g = fst (special_regs n) \/ g = snd (special_regs n)))
  | EvPsgTone k _ | EvPsgAtt k _ => v = VPsg /\ k = n
  | _ => True
  end.
Definition chip_write (e : event) : Prop := match e with EvYm _ _ _ | EvPsgTone _ _ | EvPsgAtt _ _ => True | _ => False end.
(** The two messages that release a key. *)
Definition lets_go (c p : Z) (m : mop) : Prop := m = MNoteOff c p \/ m = MNoteOn c p 0.
