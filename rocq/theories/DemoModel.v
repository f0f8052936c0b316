(** Model of src/comm/comm_demo.c with the reading loop of midi_rx.c, when demo
    mode is the transport in use. *)
From Verif Require Import Base RingBufModel MidiModel RxModel.

(** Bits of the controller state (SGDK joy.h). *)
Definition BUTTON_UP : Z := 0x0001.
Definition BUTTON_DOWN : Z := 0x0002.
Definition BUTTON_LEFT : Z := 0x0004.
Definition BUTTON_RIGHT : Z := 0x0008.
Definition BUTTON_B : Z := 0x0010.
Definition BUTTON_A : Z := 0x0040.

(** comm_demo.c:13-21 (prev_joy_state is never read), and the decoder. *)
Record demo := mkDemo { dm_on : bool; dm_played : bool; dm_pitch : Z; dm_prog : Z;
  dm_timer : Z; dm_button : Z; dm_ring : ring; dm_rx : rx }.
Definition dm_set_on b s := mkDemo b (dm_played s) (dm_pitch s) (dm_prog s) (dm_timer s) (dm_button s) (dm_ring s) (dm_rx s).
Definition dm_set_played b s := mkDemo (dm_on s) b (dm_pitch s) (dm_prog s) (dm_timer s) (dm_button s) (dm_ring s) (dm_rx s).
Definition dm_set_pitch p s := mkDemo (dm_on s) (dm_played s) p (dm_prog s) (dm_timer s) (dm_button s) (dm_ring s) (dm_rx s).
Definition dm_set_prog p s := mkDemo (dm_on s) (dm_played s) (dm_pitch s) p (dm_timer s) (dm_button s) (dm_ring s) (dm_rx s).
Definition dm_set_repeat b t s := mkDemo (dm_on s) (dm_played s) (dm_pitch s) (dm_prog s) t b (dm_ring s) (dm_rx s).
Definition dm_set_ring r s := mkDemo (dm_on s) (dm_played s) (dm_pitch s) (dm_prog s) (dm_timer s) (dm_button s) r (dm_rx s).
Definition dm_set_rx x s := mkDemo (dm_on s) (dm_played s) (dm_pitch s) (dm_prog s) (dm_timer s) (dm_button s) (dm_ring s) x.

(** comm_demo.c:26-38 *)
Definition demo_init (arr : list Z) : demo := mkDemo false false 69 0 0 0 (mkRing (Some arr) 0 0 24) None.

(** A ring_buf_write whose status is ignored. *)
Definition put_byte (b : Z) : M demo unit := fun s =>
  match ring_buf_write b (dm_ring s) with
  | Fault f => Fault f
  | Done _ r o => Done tt (dm_set_ring r s) o
  end.

(** comm_demo.c:79-97 *)
Definition send_note_off (p : Z) : M demo unit := put_byte 0x80 ;; put_byte p ;; put_byte 0.
Definition send_note_on (p : Z) : M demo unit := put_byte 0x90 ;; put_byte p ;; put_byte 127.
Definition send_program_change (p : Z) : M demo unit := put_byte 0xC0 ;; put_byte p.

(** comm_demo.c:45-67 *)
Definition demo_read_ready (joy : Z) : M demo bool :=
  on <- gets dm_on ;;
  if negb on then
    if negb (Z.land joy BUTTON_A =? 0) then
      modify (dm_set_on true) ;;
      played <- gets dm_played ;;
      when (negb played)
        (put_byte 0xB0 ;; put_byte 83 ;; put_byte 0x7F ;;
         put_byte 0x90 ;; p <- gets dm_pitch ;; put_byte p ;; put_byte 0x7F ;;
         modify (dm_set_played true)) ;;
      gets (fun s => ring_buf_can_read (dm_ring s))
    else ret false
  else gets (fun s => ring_buf_can_read (dm_ring s)).

(** comm_demo.c:69-77 *)
Definition demo_read : M demo Z := fun s =>
  match ring_buf_read (dm_ring s) with
  | Fault f => Fault f
  | Done (RB_OK, Some d) r o => Done d (dm_set_ring r s) o
  | Done _ r o => Done 0 (dm_set_ring r s) o
  end.

(** comm_demo.c:99-118 *)
Definition should_repeat_button (joy mask : Z) : M demo bool :=
  s <- get ;;
  if negb (Z.land joy mask =? 0) then
    if negb (dm_button s =? mask) then modify (dm_set_repeat mask 1) ;; ret true
    else
      let t := u16 (dm_timer s + 1) in
      modify (dm_set_repeat (dm_button s) t) ;;
      ret ((30 <? t) && (Z.rem (t - 30) 10 =? 0))
  else if dm_button s =? mask then modify (dm_set_repeat 0 0) ;; ret false
  else ret false.

(** comm_demo.c:120-173 (JOY_update is the environment's). *)
Definition demo_vsync (joy : Z) : M demo unit :=
  on <- gets dm_on ;;
  when on
    (up <- should_repeat_button joy BUTTON_UP ;;
     when up
       (p <- gets dm_pitch ;; send_note_off p ;;
        let p := u8 (p + 1) in
        let p := if 106 <? p then 106 else p in
        modify (dm_set_pitch p) ;; send_note_on p) ;;
     down <- should_repeat_button joy BUTTON_DOWN ;;
     when down
       (p <- gets dm_pitch ;; send_note_off p ;;
        let p := u8 (p - 1) in
        let p := if p <? 11 then 11 else p in
        modify (dm_set_pitch p) ;; send_note_on p) ;;
     right <- should_repeat_button joy BUTTON_RIGHT ;;
     when right
       (p <- gets dm_pitch ;; send_note_off p ;;
        g <- gets dm_prog ;;
        let g := u8 (g + 1) in
        let g := if 0x7F <? g then 0x7F else g in
        modify (dm_set_prog g) ;; send_program_change g ;; send_note_on p) ;;
     left <- should_repeat_button joy BUTTON_LEFT ;;
     when left
       (p <- gets dm_pitch ;; send_note_off p ;;
        g <- gets dm_prog ;;
        let g := u8 (g - 1) in
        let g := if g =? 0xFF then 0 else g in
        modify (dm_set_prog g) ;; send_program_change g ;; send_note_on p) ;;
     a <- should_repeat_button joy BUTTON_A ;;
     when a (p <- gets dm_pitch ;; send_note_off p ;; send_note_on p) ;;
     b <- should_repeat_button joy BUTTON_B ;;
     when b (p <- gets dm_pitch ;; send_note_off p)).

(** The tick handler, midi_rx.c:51-61 with comm.c:96-104: between messages it
    stops when nothing is ready; inside a message it waits, and then nothing can
    ever arrive, because bytes are only produced by the frame handler of the
    same thread.  [fuel] bounds the turns; the ring cannot hold more. *)
Fixpoint demo_tick (fuel : nat) (seq : list Z) (joy : Z) : M demo (list mop) :=
  match fuel with
  | O => fail F_hang
  | S n =>
      ready <- demo_read_ready joy ;;
      s <- get ;;
      if ready then
        b <- demo_read ;;
        match rx_byte (reset_action seq) (dm_rx s) b with
        | Failed f => fail f
        | Ran ops st =>
            modify (dm_set_rx st) ;;
            rest <- demo_tick n seq joy ;;
            ret (ops ++ rest)
        end
      else match dm_rx s with
           | None => ret []
           | Some _ => fail F_hang
           end
  end.

(** One turn of scheduler_tick (scheduler.c:60-67): the tick handler, then, if a
    frame has passed, the frame handler.  [joy1] and [joy2] are the controller
    states seen by the two. *)
Inductive turn : Type := Turn (joy1 : Z) (frame : bool) (joy2 : Z).
Definition demo_turn (t : turn) : M demo (list mop) :=
  match t with
  | Turn joy1 frame joy2 =>
      ops <- demo_tick 32 STARTUP_MIDI_SEQUENCE joy1 ;;
      when frame (demo_vsync joy2) ;;
      ret ops
  end.
Fixpoint demo_run (l : list turn) : M demo (list mop) :=
  match l with
  | [] => ret []
  | t :: r => a <- demo_turn t ;; b <- demo_run r ;; ret (a ++ b)
  end.
