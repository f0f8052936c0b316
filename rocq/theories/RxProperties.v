(** Properties of the MIDI decoder (midi_rx.c) and of the serial path. *)
From Verif Require Import Base MidiModel RxModel RxSpec RxProofs SerialModel SerialSpec SerialProofs.

(** ** C03 *)
(** Every concatenation of complete messages is decoded as those messages, for
    every startup sequence of complete messages without a reset. *)
Theorem C03_exact : forall startup l,
  startup_ok startup -> Forall msg_ok l ->
  receive (stream startup) None (stream l) = Ran (meanings (meanings [] startup) l) None.
Proof. exact c03. Qed.
Print Assumptions C03_exact.
Definition C03_messages : list msg :=
  [NoteOn 0 60 100; KeyPressure 3 60 5; Bend 15 8193; SysEx [0; 0x22; 0x77; 3; 1]; SongPosition 1000;
   RealTime 0xF8; TuneRequest; Control 4 7 100; ChannelPressure 2 9; Program 5 127; SystemReset; NoteOff 0 60 64].
Example C03_nonvacuous :
  startup_ok [Program 0 4] /\ Forall msg_ok C03_messages /\
  receive (stream [Program 0 4]) None (stream C03_messages)
  = Ran [MNoteOn 0 60 100; MBend 15 8193; MSysex [0; 0x22; 0x77; 3; 1]; MCc 4 7 100; MProgram 5 127;
         MReset; MProgram 0 4; MNoteOff 0 60] None.
Proof. exact c03_example. Qed.

(** ** C04 *)
(** At most 256 bytes reach the SysEx handler. *)
Theorem C04_limit : forall seq l o st,
  receive seq None l = Ran o st -> Forall short_sysex o.
Proof. exact c04_limit. Qed.
Print Assumptions C04_limit.
(** A body that reaches 256 bytes ends there; what follows is new input. *)
Theorem C04_oversize : forall seq body rest,
  Forall (fun d => d <> 0xF7) body -> length body = 256%nat ->
  receive seq None (0xF0 :: body ++ rest) = after [MSysex body] (receive seq None rest).
Proof. exact c04_oversize. Qed.
Print Assumptions C04_oversize.
(** Any terminated body within the limit, of any bytes, is handed over exactly. *)
Theorem C04_any_body : forall seq body rest,
  Forall (fun d => d <> 0xF7) body -> (length body <= 256)%nat ->
  receive seq None (0xF0 :: body ++ 0xF7 :: rest) = after [MSysex body] (receive seq None rest).
Proof. exact c04_any_body. Qed.
Print Assumptions C04_any_body.
(** An unknown status byte consumes only itself. *)
Theorem C04_unknown : forall seq b rest,
  unknown_status b -> receive seq None (b :: rest) = receive seq None rest.
Proof. exact c04_unknown. Qed.
Print Assumptions C04_unknown.
(** No byte stream whatever makes the decoder fail. *)
Theorem C04_total : forall startup l,
  startup_ok startup -> exists o st, receive (stream startup) None l = Ran o st.
Proof. exact receive_total. Qed.
Print Assumptions C04_total.
Example C04_nonvacuous :
  receive [] None (0xF0 :: repeat 5 256 ++ [0x90; 60; 100]) = Ran [MSysex (repeat 5 256); MNoteOn 0 60 100] None.
Proof. exact c04_example. Qed.

(** ** C05 *)
(** At every moment of every arrival schedule whose backlog stays within 511
    bytes: no failure, nothing lost, and the actions taken are the decoding of
    the bytes read so far. *)
Theorem C05_always : forall startup arr evs,
  startup_ok startup -> (512 <= length arr)%nat ->
  Forall byte_ok (arrivals evs) -> backlog_within 511 0 evs ->
  exists ops s' read wait st', serial_run (stream startup) evs (serial_start arr) = SRan ops s' /\
    arrivals evs = read ++ wait /\ receive (stream startup) None read = Ran ops st' /\
    length wait = fold_left backlog_step evs 0%nat.
Proof. exact c05_always. Qed.
Print Assumptions C05_always.
(** Once the main loop has caught up, the messages dispatched are the messages
    sent. *)
Theorem C05_delivers : forall startup arr evs l,
  startup_ok startup -> (512 <= length arr)%nat -> Forall msg_ok l ->
  arrivals evs = stream l -> backlog_within 511 0 evs -> fold_left backlog_step evs 0%nat = 0%nat ->
  exists s', serial_run (stream startup) evs (serial_start arr) = SRan (meanings (meanings [] startup) l) s'.
Proof. exact c05. Qed.
Print Assumptions C05_delivers.
(** It catches up within 511 polls of the last byte. *)
Theorem C05_catches_up : forall startup arr evs l,
  startup_ok startup -> (512 <= length arr)%nat -> Forall msg_ok l ->
  arrivals evs = stream l -> backlog_within 511 0 evs ->
  exists s', serial_run (stream startup) (evs ++ repeat SPoll 511) (serial_start arr)
             = SRan (meanings (meanings [] startup) l) s'.
Proof. exact c05_drained. Qed.
Print Assumptions C05_catches_up.
(** The limit is needed: with a backlog of 512 a message disappears. *)
Theorem C05_limit_needed : exists evs s',
  arrivals evs = stream overflow_msgs /\ Forall msg_ok overflow_msgs /\
  serial_run [] (evs ++ repeat SPoll 600) (serial_start (repeat 0 512)) = SRan [] s' /\
  meanings [] overflow_msgs = [MNoteOn 0 60 100].
Proof. exact c05_overflow. Qed.
Print Assumptions C05_limit_needed.
Definition C05_schedule : list sev :=
  [SPoll; SArrive 0x92; SPoll; SPoll; SArrive 64; SArrive 90; SArrive 0xC3; SPoll; SPoll; SArrive 7; SPoll; SPoll].
Example C05_nonvacuous :
  arrivals C05_schedule = stream [NoteOn 2 64 90; Program 3 7] /\ backlog_within 511 0 C05_schedule /\
  fold_left backlog_step C05_schedule 0%nat = 0%nat.
Proof. exact c05_example. Qed.

(** ** C64 *)
(** Real-time messages between other messages change nothing.
    Missing: real-time bytes inside a message. *)
Theorem C64_between_partial : forall startup l l',
  startup_ok startup -> Forall msg_ok l -> Forall msg_ok l' ->
  filter (fun m => negb (is_real_time m)) l = filter (fun m => negb (is_real_time m)) l' ->
  receive (stream startup) None (stream l) = receive (stream startup) None (stream l').
Proof. exact c64_between. Qed.
Print Assumptions C64_between_partial.
(** Inside a message they are taken for data: a clock byte in a note on. *)
Theorem C64_refuted : ~ (forall l a b rt,
  Forall msg_ok l -> 0xF8 <= rt <= 0xFE -> stream l = a ++ b ->
  receive [] None (a ++ rt :: b) = receive [] None (stream l)).
Proof. exact c64_refuted. Qed.
Print Assumptions C64_refuted.
Example C64_nonvacuous :
  filter (fun m => negb (is_real_time m)) [RealTime 0xF8; NoteOn 0 60 100; RealTime 0xFE] = [NoteOn 0 60 100].
Proof. reflexivity. Qed.

(** ** C68 *)
(** Running status (a second message of the same kind without its status byte)
    is not understood. *)
Theorem C68_refuted : ~ (forall c k v k' v',
  chan_ok c -> data_ok k -> data_ok v -> data_ok k' -> data_ok v' ->
  receive [] None ([0x90 + c; k; v] ++ [k'; v']) = receive [] None (stream [NoteOn c k v; NoteOn c k' v'])).
Proof. exact running_status_refuted. Qed.
Print Assumptions C68_refuted.
(** The data bytes are skipped without effect and the decoder stays in step. *)
Theorem C68_skipped : forall seq ds rest,
  Forall data_ok ds -> receive seq None (ds ++ rest) = receive seq None rest.
Proof. exact c68_skipped. Qed.
Print Assumptions C68_skipped.

(** ** C69 *)
(** A startup sequence of complete messages runs as those messages. *)
Theorem C69_startup : forall l,
  startup_ok l -> run_startup_sequence (stream l) = Ran (meanings [] l) None.
Proof. exact startup_run. Qed.
Print Assumptions C69_startup.
(** A reset message in it never ends; a truncated note on stops the console. *)
Theorem C69_reset_refuted : forall a b,
  startup_ok a -> run_startup_sequence (stream a ++ 0xFF :: b) = Failed F_hang.
Proof. exact startup_reset_hangs. Qed.
Print Assumptions C69_reset_refuted.
Theorem C69_truncated_refuted : forall a c,
  startup_ok a -> chan_ok c -> run_startup_sequence (stream a ++ [0x90 + c]) = Failed F_die.
Proof. exact startup_truncated_dies. Qed.
Print Assumptions C69_truncated_refuted.
Example C69_nonvacuous :
  startup_ok [Control 0 7 100; SysEx [0; 0x22; 0x77; 3; 1]] /\
  run_startup_sequence (stream [Control 0 7 100; SysEx [0; 0x22; 0x77; 3; 1]])
  = Ran [MCc 0 7 100; MSysex [0; 0x22; 0x77; 3; 1]] None.
Proof. exact c69_example. Qed.
