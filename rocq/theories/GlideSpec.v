(** A line played with portamento on one FM channel. *)
From Verif Require Import Base MidiModel MidiSpec SoundSpec AppModel AppSpec.

(** Cents per frame of a glide on each MIDI channel: controller 5 selects one of the
    times of the table in midi.c:64-70; 47 (time 64) after power-on, a reset and Reset
    All Controllers. *)
Definition speed_after (f : Z -> Z) (m : mop) : Z -> Z :=
  match m with
  | MCc c k v => if k =? 5 then set_at f c (nth (Z.to_nat v) portaTimeToInterval 0) else if k =? 121 then set_at f c 47 else f
  | MReset => fun _ => 47
  | MSysex data => if is_gm_reset data then fun _ => 47 else f
  | _ => f
  end.
Definition speed (ms : list mop) : Z -> Z := fold_left speed_after ms (fun _ => 47).

(** The line: the keys held down, oldest first, and the pitch it has reached in cents. *)
Record line := mkLine { l_keys : list Z; l_at : Z }.
Definition newest (l : line) : Z := last (l_keys l) 0.
(** One frame brings the line [rate] cents nearer to the newest key.  Upwards it stops at
    the key; downwards it is taken to the key once less than a semitone is left. *)
Definition moved (rate : Z) (l : line) : Z :=
  let aim := 100 * newest l in
  if l_at l <? aim then Z.min aim (l_at l + rate)
  else if l_at l - rate <? aim + 100 then aim else l_at l - rate.
Definition released (k : Z) (l : list Z) : list Z := filter (fun x => negb (x =? k)) l.
Definition line_after (rate c : Z) (l : line) (op : aop) : line :=
  match op with
  | AFrame => mkLine (l_keys l) (moved rate l)
  | AMsg (MNoteOn b k _) => if b =? c then mkLine (l_keys l ++ [k]) (l_at l) else l
  | AMsg (MNoteOff b k) => if b =? c then mkLine (released k (l_keys l)) (l_at l) else l
  | AMsg _ => l
  end.
Definition line_played (rate c p : Z) (ops : list aop) : line := fold_left (line_after rate c) ops (mkLine [p] (100 * p)).

(** What may follow while the line sounds: frames; a further key, from 12 up and at most
    ten; the release of the newest key while another is held; pitch bends; notes, levels,
    sides, programs and bends of other channels. *)
Definition legato (c : Z) (l : line) (op : aop) : Prop :=
  match op with
  | AFrame => True
  | AMsg (MNoteOn b k v) => b = c -> 12 <= k /\ v <> 0 /\ (length (l_keys l) < 10)%nat
  | AMsg (MNoteOff b k) => b = c -> k = newest l /\ released k (l_keys l) <> []
  | AMsg (MBend _ _) => True
  | AMsg m => exists a, a <> c /\ note_or_setting a m
  end.
Fixpoint legato_all (rate c : Z) (l : line) (ops : list aop) : Prop :=
  match ops with
  | [] => True
  | op :: t => legato c l op /\ legato_all rate c (line_after rate c l op) t
  end.

(** The pitch of a line at [at] cents after the messages [ms]: bent, and bent and tuned. *)
Definition line_bent (ms : list mop) (c at_ : Z) : Z :=
  at_ + PitchSpec.bend_cents (st_bend (settings ms c)) (100 * st_semis (settings ms c) + st_cents (settings ms c)).
Definition line_pitch (ms : list mop) (c at_ : Z) : Z := line_bent ms c at_ + tn_fine (tuned ms) c.
