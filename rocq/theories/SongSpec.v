(** PSG notes and envelopes as a player hears them: from the message to the chip. *)
From Verif Require Import Base PitchSpec PsgModel PsgSpec MidiModel MidiSpec DevModel DevSpec AppModel AppSpec SoundSpec.

(** Frames in a history. *)
Fixpoint frames (ops : list aop) : Z :=
  match ops with [] => 0 | AFrame :: t => 1 + frames t | AMsg _ :: t => frames t end.

(** The upload of envelope [e] (SysEx command 6): every byte as two nibbles, the
    high one first. *)
Definition nibbles (e : list Z) : list Z := flat_map (fun b => [b / 16; b mod 16]) e.
Definition upload (e : list Z) : mop := own_sysex 6 (nibbles e).

(** PSG channel [n] sounds with envelope byte [b] of a note of velocity [vel] at
    [cents], on a MIDI channel of volume [vol]; [None] is silence. *)
Definition psg_sounds (pal : bool) (tr : list event) (n vol vel cents : Z) (b : option Z) : Prop :=
  match b with
  | None => chip_att att_at_boot tr n = 15
  | Some b =>
      chip_att att_at_boot tr n = psg_level vol vel (b mod 16) /\
      (0 <= cents + nth (Z.to_nat (b / 16)) shift_cents 0 < 25600 ->
       chip_tone tone_at_boot tr n = psg_tone pal (cents + nth (Z.to_nat (b / 16)) shift_cents 0))
  end.

(** Messages that leave a note of MIDI channel [c] alone: all but its keys, All
    Notes Off, All Sound Off, portamento and fine tuning of that channel, the
    messages that re-assign device channels, envelope uploads and resets. *)
Definition leaves_note (c : Z) (m : mop) : Prop :=
  ~ remapping m /\ ~ gm_reset_msg m /\ ~ is_sysex_cmd 6 m /\ m <> MReset /\
  match m with
  | MNoteOn a _ _ | MNoteOff a _ => a <> c
  | MCc a k _ => a <> c \/ k <> 65 /\ k <> 85 /\ k <> 120 /\ k <> 123
  | _ => True
  end.
Definition undisturbed (c : Z) (ops : list aop) : Prop := forall m, In (AMsg m) ops -> leaves_note c m.

(** PSG channel [n] was free and the note [p] of MIDI channel [c] was given it. *)
Definition taken (s0 s1 : midi) (n c p : Z) : Prop :=
  exists d0 d1, dev_at s0 (6 + n) d0 /\ dev_at s1 (6 + n) d1 /\ d_on d0 = false /\ d_on d1 = true /\ d_midi d1 = c /\ d_pitch d1 = p.

(** The envelope a note of MIDI channel [c] is played with: the one uploaded last, or
    else the one of the selected program. *)
Definition voice_envelope (r : rom) (ops : list aop) (c : Z) (env : list Z) : Prop :=
  (exists a e b, ops = a ++ AMsg (upload e) :: b /\ without (is_sysex_cmd 6) b /\ Forall byte e /\ env = e ++ [255]) \/
  (without (is_sysex_cmd 6) ops /\ zget (rom_envs r) (st_prog (settings (map message ops) c)) = Some env).
(** The Note On after [ops] starts the note on PSG channel [n]: in static mode it is
    the PSG channel of MIDI channels 7 to 10 (6 to 9 from 0), and fewer than ten keys
    of the channel are down; else the channel was free and was given the note. *)
Definition given_psg (r : rom) (hw : hardware) (mem : list Z) (ops : list aop) (c p v n : Z) : Prop :=
  (c = 6 + n /\ without remaps ops /\ (length (filter (fun k => Z.eqb (fst k) c) (MidiSpec.held (map message ops))) < 10)%nat) \/
  (exists s0 tr0 s1 tr1, history r hw mem ops s0 tr0 /\ history r hw mem (ops ++ [AMsg (MNoteOn c p v)]) s1 tr1 /\ taken (a_midi s0) (a_midi s1) n c p).

(** The message that releases the note [p] of MIDI channel [c] after [ops]: All Notes
    Off, All Sound Off, or - in static mode - a Note Off when no other key of the channel
    is down. *)
Definition lets_go (ops : list aop) (c p n : Z) (m : mop) : Prop :=
  (exists v, m = MCc c 123 v \/ m = MCc c 120 v) \/
  ((m = MNoteOff c p \/ m = MNoteOn c p 0) /\ c = 6 + n /\ without remaps ops /\ forall q, In (c, q) (MidiSpec.held (map message ops)) -> q = p).
(** What follows the release leaves the voice alone: nothing for MIDI channel [c], and
    in dynamic mode no new notes. *)
Definition left_alone (ops more : list aop) (c n : Z) : Prop :=
  (forall m, In (AMsg m) more -> leaves_note c m /\ on_channel m <> Some c) /\
  ((c = 6 + n /\ without remaps ops) \/ (forall a q v, ~ In (AMsg (MNoteOn a q v)) more)).
(** A Note On after [before] that starts a note on PSG channel [n], at a pitch the PSG
    can play, without portamento, and without re-assignment of device channels or a
    System Reset before it. *)
Definition psg_note (r : rom) (hw : hardware) (mem : list Z) (before : list aop) (c p v n : Z) : Prop :=
  is_psg n /\ 1 <= v /\ given_psg r hw mem before c p v n /\ without remapping before /\ without (eq MReset) before /\
  tn_glide (tuned (map message before)) c = false /\
  0 <= bent (map message before) c p /\ 45 <= pitched (map message before) c p / 100.
(** The pitch has not been bent below the lowest note. *)
Definition in_range (ops : list aop) (c p : Z) : Prop := 0 <= bent (map message ops) c p /\ 0 <= pitched (map message ops) c p.
(** After [ops], PSG channel [n] sounds with envelope byte [b] of note [p] of MIDI channel
    [c], of velocity [v], at the volume, bend and tuning the channel has after [now]. *)
Definition note_sounds (r : rom) (now : list aop) (tr : list event) (n c p v : Z) (b : option Z) : Prop :=
  psg_sounds (rom_pal r) tr n (st_vol (settings (map message now) c)) v (pitched (map message now) c p) b.

(** Pressing keys of MIDI channel [c] and stopping them with All Notes Off, never with a
    Note Off. *)
Definition press_or_stop (c : Z) (op : aop) : Prop :=
  op = AFrame \/ (exists p v, op = AMsg (MNoteOn c p v) /\ 1 <= v) \/ exists v, op = AMsg (MCc c 123 v).
Definition key_presses (ops : list aop) : nat := length (filter (fun op => match op with AMsg (MNoteOn _ _ _) => true | _ => false end) ops).
