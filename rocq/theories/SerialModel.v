(** Model of src/comm/comm_serial.c joined to the decoder of midi_rx.c: bytes
    arrive by interrupt, the main loop polls. *)
From Verif Require Import Base RingBufModel RxModel MidiModel.

(** comm_serial.c:8-10 and the reading thread of midi_rx.c. *)
Record serial := mkSerial { sl_recv : bool; sl_ring : ring; sl_rx : rx }.

Inductive sres : Type := SRan (ops : list mop) (s : serial) | SFailed (f : fault).

(** comm_serial.c:51-60 (the ring part); [arr] is the array's old content. *)
Definition serial_start (arr : list Z) : serial := mkSerial false (mkRing (Some arr) 0 0 512) None.

(** One byte arriving, comm_serial.c:26-42: the UART holds one byte, so the loop
    body runs once.  A full ring loses the byte (and logs). *)
Definition serial_arrive (b : Z) (s : serial) : sres :=
  match ring_buf_write b (sl_ring s) with
  | Fault f => SFailed f
  | Done _ r _ => SRan [] (mkSerial true r (sl_rx s))
  end.

(** comm_serial.c:67-72 *)
Definition serial_read_ready (s : serial) : bool :=
  if negb (sl_recv s) then false else ring_buf_can_read (sl_ring s).

(** comm_serial.c:74-91 *)
Definition serial_read (r : ring) : res ring Z :=
  match ring_buf_read r with
  | Fault f => Fault f
  | Done (RB_OK, Some d) r o => Done d r o
  | Done _ r o => Done 0 r o
  end.

(** One poll of the main loop (midi_rx.c:53 between messages, the loop of
    comm.c:98-99 inside one): if a byte is ready it is read and decoded. *)
Definition serial_poll (seq : list Z) (s : serial) : sres :=
  if negb (serial_read_ready s) then SRan [] s
  else match serial_read (sl_ring s) with
       | Fault f => SFailed f
       | Done b r _ =>
           match rx_byte (reset_action seq) (sl_rx s) b with
           | Failed f => SFailed f
           | Ran ops st => SRan ops (mkSerial (sl_recv s) r st)
           end
       end.

Inductive sev : Type := SArrive (b : Z) | SPoll.
Definition serial_step (seq : list Z) (e : sev) (s : serial) : sres :=
  match e with SArrive b => serial_arrive b s | SPoll => serial_poll seq s end.
Fixpoint serial_run (seq : list Z) (evs : list sev) (s : serial) : sres :=
  match evs with
  | [] => SRan [] s
  | e :: t =>
      match serial_step seq e s with
      | SFailed f => SFailed f
      | SRan o1 s1 =>
          match serial_run seq t s1 with
          | SFailed f => SFailed f
          | SRan o2 s2 => SRan (o1 ++ o2) s2
          end
      end
  end.
