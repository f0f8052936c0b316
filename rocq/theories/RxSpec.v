(** MIDI messages and their bytes, from the MIDI 1.0 specification. *)
From Verif Require Import Base MidiModel RxModel.

Inductive msg : Type :=
| NoteOff (c k v : Z) | NoteOn (c k v : Z) | KeyPressure (c k p : Z) | Control (c k v : Z)
| Program (c p : Z) | ChannelPressure (c p : Z) | Bend (c v : Z)
| SysEx (body : list Z)
| QuarterFrame (d : Z) | SongPosition (v : Z) | SongSelect (d : Z) | TuneRequest
| RealTime (b : Z) | SystemReset.

Definition encode (m : msg) : list Z :=
  match m with
  | NoteOff c k v => [0x80 + c; k; v]
  | NoteOn c k v => [0x90 + c; k; v]
  | KeyPressure c k p => [0xA0 + c; k; p]
  | Control c k v => [0xB0 + c; k; v]
  | Program c p => [0xC0 + c; p]
  | ChannelPressure c p => [0xD0 + c; p]
  | Bend c v => [0xE0 + c; v mod 128; v / 128]
  | SysEx body => 0xF0 :: body ++ [0xF7]
  | QuarterFrame d => [0xF1; d]
  | SongPosition v => [0xF2; v mod 128; v / 128]
  | SongSelect d => [0xF3; d]
  | TuneRequest => [0xF6]
  | RealTime b => [b]
  | SystemReset => [0xFF]
  end.
Definition stream (l : list msg) : list Z := flat_map encode l.

Definition chan_ok (c : Z) : Prop := 0 <= c < 16.
Definition data_ok (d : Z) : Prop := 0 <= d < 128.
Definition msg_ok (m : msg) : Prop :=
  match m with
  | NoteOff c k v | NoteOn c k v | KeyPressure c k v | Control c k v => chan_ok c /\ data_ok k /\ data_ok v
  | Program c p | ChannelPressure c p => chan_ok c /\ data_ok p
  | Bend c v => chan_ok c /\ 0 <= v < 16384
  | SysEx body => Forall data_ok body /\ (length body <= 256)%nat
  | QuarterFrame d | SongSelect d => data_ok d
  | SongPosition v => 0 <= v < 16384
  | TuneRequest | SystemReset => True
  | RealTime b => 0xF8 <= b <= 0xFE
  end.

(** What the interface is asked to do; [startup] are the actions of the startup
    sequence. *)
Definition meaning (startup : list mop) (m : msg) : list mop :=
  match m with
  | NoteOff c k _ => [MNoteOff c k]
  | NoteOn c k v => [MNoteOn c k v]
  | Control c k v => [MCc c k v]
  | Program c p => [MProgram c p]
  | Bend c v => [MBend c v]
  | SysEx body => [MSysex body]
  | SystemReset => MReset :: startup
  | KeyPressure _ _ _ | ChannelPressure _ _ | QuarterFrame _ | SongPosition _ | SongSelect _
  | TuneRequest | RealTime _ => []
  end.
Definition meanings (startup : list mop) (l : list msg) : list mop := flat_map (meaning startup) l.

Definition not_reset (m : msg) : Prop := m <> SystemReset.
(** A startup sequence of complete messages, without a reset. *)
Definition startup_ok (l : list msg) : Prop := Forall msg_ok l /\ Forall not_reset l.

Definition is_real_time (m : msg) : bool := match m with RealTime _ => true | _ => false end.

(** Status bytes the interface does not know. *)
Definition unknown_status (b : Z) : Prop :=
  0 <= b < 0x80 \/ 0xA0 <= b < 0xB0 \/ 0xD0 <= b < 0xE0 \/ In b [0xF1; 0xF3; 0xF4; 0xF5; 0xF6; 0xF7; 0xF9; 0xFD; 0xFE].

(** Prefix an outcome with earlier actions. *)
Definition after (ops : list mop) (o : outcome) : outcome :=
  match o with Ran o2 st => Ran (ops ++ o2) st | Failed f => Failed f end.

(** The receive buffer holds 256 bytes. *)
Definition short_sysex (op : mop) : Prop := match op with MSysex d => (length d <= 256)%nat | _ => True end.
