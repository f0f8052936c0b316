(** Model of src/midi_rx.c: decoding of the MIDI byte stream. *)
From Verif Require Import Base MidiModel.

(** A function that calls [reader()] is a tree: it wants a byte ([RdByte]), or
    has finished after calling the functions of midi.c in order ([RdDone]), or
    is lost ([RdFault]). *)
Inductive reading : Type :=
| RdDone (ops : list mop)
| RdByte (k : Z -> reading)
| RdFault (f : fault).

(** midi_rx.c:201-211; [room] is BUFFER_LENGTH - index. *)
Fixpoint read_sysex (room : nat) (buffer : list Z) : reading :=
  match room with
  | O => RdDone [MSysex buffer]
  | S n => RdByte (fun data =>
      if data =? 0xF7 then RdDone [MSysex buffer] else read_sysex n (buffer ++ [data]))
  end.

(** midi_rx.c:167-172; u16. *)
Definition value14 (lower upper : Z) : Z := u16 (Z.shiftl upper 7 + lower).

(** midi_rx.c:174-199; [on_reset] is what the reset case does. *)
Definition read_system_message (on_reset : reading) (status : Z) : reading :=
  match Z.land status 0x0F with
  | 2 => RdByte (fun _ => RdByte (fun _ => RdDone []))
  | 8 | 10 | 11 | 12 => RdDone []
  | 0 => read_sysex 256 []
  | 15 => on_reset
  | _ => RdDone []
  end.

(** midi_rx.c:95-165 *)
Definition read_message (on_reset : reading) : reading :=
  RdByte (fun status =>
    let chan := Z.land status 0x0F in
    match Z.shiftr status 4 with
    | 0x9 => RdByte (fun pitch => RdByte (fun velocity => RdDone [MNoteOn chan pitch velocity]))
    | 0x8 => RdByte (fun pitch => RdByte (fun _ => RdDone [MNoteOff chan pitch]))
    | 0xB => RdByte (fun controller => RdByte (fun value => RdDone [MCc chan controller value]))
    | 0xE => RdByte (fun lower => RdByte (fun upper => RdDone [MBend chan (value14 lower upper)]))
    | 0xC => RdByte (fun program => RdDone [MProgram chan program])
    | 0xF => read_system_message on_reset status
    | _ => RdDone []
    end).

(** ** Feeding bytes *)
(** Where the reading thread is: between messages, or inside one. *)
Definition rx := option reading.
Inductive outcome : Type := Ran (ops : list mop) (next : rx) | Failed (f : fault).

Definition rx_byte (on_reset : reading) (st : rx) (b : Z) : outcome :=
  match (match st with None => read_message on_reset | Some t => t end) with
  | RdByte k =>
      match k b with
      | RdDone ops => Ran ops None
      | RdFault f => Failed f
      | t => Ran [] (Some t)
      end
  | RdDone ops => Ran ops None
  | RdFault f => Failed f
  end.

Fixpoint rx_run (on_reset : reading) (st : rx) (l : list Z) : outcome :=
  match l with
  | [] => Ran [] st
  | b :: t =>
      match rx_byte on_reset st b with
      | Failed f => Failed f
      | Ran o1 st1 =>
          match rx_run on_reset st1 t with
          | Failed f => Failed f
          | Ran o2 st2 => Ran (o1 ++ o2) st2
          end
      end
  end.

(** midi_rx.c:63-79: the startup sequence is decoded by the same functions; the
    read past its end is SYS_die, and a reset message inside it starts it again
    for ever. *)
Definition run_startup_sequence (seq : list Z) : outcome :=
  match rx_run (RdFault F_hang) None seq with
  | Ran ops None => Ran ops None
  | Ran _ (Some _) => Failed F_die
  | Failed f => Failed f
  end.

(** midi_rx.c:190-194 *)
Definition reset_action (seq : list Z) : reading :=
  match run_startup_sequence seq with
  | Ran ops _ => RdDone (MReset :: ops)
  | Failed f => RdFault f
  end.

(** midi_rx.c:51-61: the tick handler fed the bytes of [l]. *)
Definition receive (seq : list Z) (st : rx) (l : list Z) : outcome := rx_run (reset_action seq) st l.

(** user_prefs.h:30 *)
Definition STARTUP_MIDI_SEQUENCE : list Z := [].
