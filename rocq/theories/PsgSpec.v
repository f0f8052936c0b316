(** Independent view of the PSG (SN76489) and of well-formed use. *)
From Verif Require Import Base PitchModel PitchSpec PsgModel.

(** Attenuation and tone last sent to channel [c] ([d] before the first). *)
Definition psg_att_step (c : Z) (a : Z) (e : event) : Z :=
  match e with EvPsgAtt c' v => if c' =? c then v else a | _ => a end.
Definition chip_att (d : Z) (tr : list event) (c : Z) : Z := fold_left (psg_att_step c) tr d.
Definition psg_tone_step (c : Z) (a : Z) (e : event) : Z :=
  match e with EvPsgTone c' v => if c' =? c then v else a | _ => a end.
Definition chip_tone (d : Z) (tr : list event) (c : Z) : Z := fold_left (psg_tone_step c) tr d.

(** The chip after SGDK's PSG_init (start-up code): silent, period 0. *)
Definition att_at_boot := 15.
Definition tone_at_boot := 0.

Definition is_psg (c : Z) : Prop := 0 <= c < 4.
Definition seven (v : Z) : Prop := 0 <= v < 128.

(** An envelope as stored in ROM or sent by a user: bytes with an end marker. *)
Definition byte (b : Z) : Prop := 0 <= b < 256.
Definition terminated (e : list Z) : Prop := Forall byte e /\ In 0xFF e.
Definition envs_ok (envs : list (list Z)) : Prop := length envs = 128%nat /\ Forall terminated envs.
(** A loadable envelope: its end marker is within the first 256 bytes. *)
Definition loadable (e : list Z) : Prop :=
  Forall byte e /\ exists n, (n < 256)%nat /\ nth_error e n = Some 0xFF.

(** Calls with legal arguments. *)
Definition pop_ok (op : pop) : Prop :=
  match op with
  | PReset | PTick => True
  | PNoteOn c p ce v => is_psg c /\ 0 <= p < 256 /\ 0 <= ce < 100 /\ seven v
  | PNoteOff c p => is_psg c
  | PAllOff c => is_psg c
  | PVolume c v => is_psg c /\ seven v
  | PProgram c p => is_psg c /\ seven p
  | PPan c v => is_psg c
  | PLoad e => loadable e
  | PPitch c p ce => is_psg c /\ 0 <= p < 256 /\ 0 <= ce < 100
  end.

(** Loudness law for the attenuation as a function of volume, velocity and
    envelope attenuation (0 loudest, 15 silent). *)
Definition psg_law (L : Z -> Z -> Z -> Z) : Prop :=
  (forall v w e, seven v -> seven w -> 0 <= e < 16 -> 0 <= L v w e <= 15) /\
  (forall v w e, seven v -> seven w -> 0 <= e < 16 -> v = 0 \/ w = 0 \/ e = 15 -> L v w e = 15) /\
  (forall e, 0 <= e < 16 -> L 127 127 e = e) /\
  (forall v v' w w' e e', 0 <= v <= v' -> v' < 128 -> 0 <= w <= w' -> w' < 128 -> 0 <= e' <= e -> e < 16 ->
     L v' w' e' <= L v w e).
(** The law the code is meant to follow: multiply inverse attenuations. *)
Definition psg_level (v w e : Z) : Z :=
  15 - (15 - nth (Z.to_nat (v * w / 127)) ATTENUATIONS 15) * (15 - e) / 15.

(** Byte an envelope pointer designates, if any. *)
Definition peek (envs : list (list Z)) (user : list Z) (p : eptr) : option Z :=
  match p with
  | ENull => None
  | EUser i => zget user i
  | ERom k i => match zget envs k with Some e => zget e i | None => None end
  end.

(** The position is inside an envelope at or before an end marker; in a ROM
    envelope no end marker was passed. *)
Definition inside (envs : list (list Z)) (user : list Z) (p : eptr) : Prop :=
  match p with
  | ENull => False
  | EUser i => 0 <= i < 256 /\ exists n, i <= n < 256 /\ zget user n = Some 0xFF
  | ERom k i => exists e, zget envs k = Some e /\ 0 <= i < Z.of_nat (length e) /\
      (forall j, 0 <= j < i -> zget e j <> Some 0xFF) /\ exists n, i <= n /\ zget e n = Some 0xFF
  end.

(** Steps from the position to the next end marker. *)
Definition to_end (envs : list (list Z)) (user : list Z) (p : eptr) (n : Z) : Prop :=
  0 <= n /\
  match p with
  | ENull => False
  | EUser i => zget user (i + n) = Some 0xFF
  | ERom k i => match zget envs k with Some e => zget e (i + n) = Some 0xFF | None => False end
  end.

(** Pitch shift in cents selected by the high nibble of an envelope byte. *)
Definition shift_cents : list Z :=
  [0; 5; 10; 20; 50; 100; 200; 500; -5; -10; -20; -50; -100; -200; -500; 0].

Fixpoint ticks (ops : list pop) : Z :=
  match ops with [] => 0 | PTick :: t => 1 + ticks t | _ :: t => ticks t end.
(** Operations that start a note on channel [c], or reset. *)
Definition retrigger (c : Z) (op : pop) : Prop :=
  match op with PNoteOn c' _ _ _ => c' = c | PReset => True | _ => False end.
Definition release (c : Z) (op : pop) : Prop :=
  match op with PNoteOff c' _ | PAllOff c' => c' = c | _ => False end.
Definition is_load (op : pop) : Prop := match op with PLoad _ => True | _ => False end.

(** What the history says a channel was last asked to play, in cents
    (notes below 45 are not played), and its last volume and velocity. *)
Fixpoint asked_pitch (c : Z) (d : Z) (ops : list pop) : Z :=
  match ops with
  | [] => d
  | PNoteOn c' p ce _ :: t => asked_pitch c (if (c' =? c) && (45 <=? p) then p * 100 + ce else d) t
  | PPitch c' p ce :: t => asked_pitch c (if c' =? c then p * 100 + ce else d) t
  | _ :: t => asked_pitch c d t
  end.
Fixpoint asked_volume (c : Z) (d : Z) (ops : list pop) : Z :=
  match ops with
  | [] => d
  | PVolume c' v :: t => asked_volume c (if c' =? c then v else d) t
  | _ :: t => asked_volume c d t
  end.
Fixpoint asked_velocity (c : Z) (d : Z) (ops : list pop) : Z :=
  match ops with
  | [] => d
  | PNoteOn c' p _ w :: t => asked_velocity c (if (c' =? c) && (45 <=? p) then w else d) t
  | _ :: t => asked_velocity c d t
  end.

(** Frames a released note can still sound, whatever envelopes are loaded. *)
Definition remaining (envs : list (list Z)) (p : eptr) (n : Z) : Prop :=
  match p with
  | ENull => False
  | EUser i => n = 255 - i
  | ERom k i => 0 <= n /\ match zget envs k with Some e => zget e (i + n) = Some 0xFF | None => False end
  end.

(** Envelope bytes that are not control codes. *)
Definition data_byte (b : Z) : Prop := 0 <= b < 0xFD.

(** The envelope the next note on channel [c] plays. *)
Fixpoint asked_program (c : Z) (d : Z) (ops : list pop) : Z :=
  match ops with
  | [] => d
  | PProgram c' p :: t => asked_program c (if c' =? c then p else d) t
  | _ :: t => asked_program c d t
  end.
Fixpoint last_load (d : option (list Z)) (ops : list pop) : option (list Z) :=
  match ops with
  | [] => d
  | PLoad e :: t => last_load (Some e) t
  | _ :: t => last_load d t
  end.
Definition selected (envs : list (list Z)) (c : Z) (ops : list pop) : option (list Z) :=
  match last_load None ops with Some e => Some e | None => zget envs (asked_program c 0 ops) end.

(** The chip plays envelope byte [b] on channel [c] at the asked pitch and
    loudness; [None] is silence. *)
Definition plays (pal : bool) (c : Z) (ops : list pop) (tr : list event) (ob : option Z) : Prop :=
  match ob with
  | None => chip_att att_at_boot tr c = 15
  | Some b =>
      chip_att att_at_boot tr c = psg_level (asked_volume c 127 ops) (asked_velocity c 127 ops) (b mod 16) /\
      (0 <= asked_pitch c 0 ops + nth (Z.to_nat (b / 16)) shift_cents 0 < 25600 ->
       chip_tone tone_at_boot tr c =
         psg_tone pal (asked_pitch c 0 ops + nth (Z.to_nat (b / 16)) shift_cents 0))
  end.

Definition len (l : list Z) : Z := Z.of_nat (length l).
(** A sequence played once, one byte per frame, then silence. *)
Definition once (l : list Z) (k : Z) : option Z := zget l k.
(** A held looping envelope after [k] frames. *)
Definition held (pre body : list Z) (k : Z) : option Z :=
  if k <? len pre then zget pre k else zget body ((k - len pre) mod len body).
(** Released after [r] frames, [j] frames ago: the loop is played to its end,
    then the tail once; a note released before its loop is silent. *)
Definition released (pre body post : list Z) (r j : Z) : option Z :=
  if r <? len pre then None
  else once (body ++ post) ((r - len pre) mod len body + j).

(** An envelope with a loop; [junk] follows the end marker. *)
Definition loop_env (pre body post junk : list Z) : list Z := pre ++ 254 :: body ++ 253 :: post ++ 255 :: junk.

(** Operations that neither start nor release a note on [c], nor replace the
    user envelope, nor reset. *)
Definition quiet (c : Z) (op : pop) : Prop := ~ release c op /\ ~ retrigger c op /\ ~ is_load op.
