(** Model of the running interface with the serial port: the main loop of
    main.c:31 and scheduler.c:60-74 with its tick handler (midi_rx.c:51-56) and
    frame handlers, the two interrupts (comm_serial.c:26-42, scheduler.c:30-33) and
    everything the received messages do (AppModel.v).  Without MegaWiFi the tick
    handler of midi_rx.c is the only one (SchedulerModel.boot_registrations).
    Simplified: the serial port is the only transport with data, so comm.c:76-100
    asks it directly; of the frame handlers only midi_psg_tick and midi_tick act
    (the screen is UiModel.v, which is shown there to change nothing; demo mode is
    off; the LED of the cartridge is not modelled). *)
From Verif Require Import Base SchedulerModel PsgModel MidiModel RxModel SerialModel DevModel AppModel.

Record machine := mkMachine { mc_app : app; mc_port : serial; mc_sched : sched }.

(** The serial interrupt, the vertical blank interrupt, one step of the main loop. *)
Inductive mevent : Type := BArrive (b : Z) | BBlank | BMain.

Section Machine.
Context (r : rom).

Definition on_app (m : M app unit) : M machine unit :=
  lift mc_app (fun s a => mkMachine a (mc_port s) (mc_sched s)) m.
Definition put_port (p : serial) : M machine unit :=
  modify (fun s => mkMachine (mc_app s) p (mc_sched s)).
(** scheduler.c, SchedulerModel.sched_step *)
Definition on_sched (l : slbl) : M machine unit :=
  modify (fun s => mkMachine (mc_app s) (mc_port s) (fst (sched_step (mc_sched s) l))).

(** The frame handlers in the order of registration (midi_psg.c:62, midi.c:115,
    then ui.c:121, comm_demo.c:28, everdrive_led.c:27). *)
Definition frame_handler (i : nat) : M app unit :=
  match i with
  | 0%nat => app_dev (ps r PsgModel.PTick)
  | 1%nat => app_midi r (midi_step MTick)
  | _ => ret tt
  end.

(** One step inside the tick handler, midi_rx.c:51-56: [comm_read_ready] decides;
    a byte that is ready is read, and a message it completes is performed
    (midi_rx.c:95-165).  Without a byte the loop is left between messages, and
    waits (comm.c:98-99) inside one. *)
Definition rx_step : M machine unit :=
  s <- get ;;
  if serial_read_ready (mc_port s)
  then match serial_poll STARTUP_MIDI_SEQUENCE (mc_port s) with
       | SFailed f => fail f
       | SRan ops p => put_port p ;; on_app (app_run r (map AMsg ops))
       end
  else match sl_rx (mc_port s) with
       | None => on_sched LMain
       | Some _ => ret tt
       end.

(** One step of the main loop, scheduler.c:60-67 *)
Definition main_step : M machine unit :=
  s <- get ;;
  match sc_pc (mc_sched s) with
  | SchedulerModel.PTick => rx_step
  | PCall i _ => on_app (frame_handler i) ;; on_sched LMain
  | _ => on_sched LMain
  end.

Definition machine_step (e : mevent) : M machine unit :=
  match e with
  | BArrive b =>
      s <- get ;;
      match serial_arrive b (mc_port s) with
      | SFailed f => fail f
      | SRan _ p => put_port p
      end
  | BBlank => on_sched LVsync
  | BMain => main_step
  end.
Definition machine_run : list mevent -> M machine unit := runM machine_step.
End Machine.

(** The frame handlers of a build without MegaWiFi,
    SchedulerModel.boot_registrations. *)
Definition FRAME_HANDLERS : nat := 5.

(** Power-on, main.c:14-30: [a] is the interface as AppModel.app_boot leaves it, [arr]
    what the array behind the ring holds (comm_serial.c:8-9). *)
Definition machine_start (a : app) (arr : list Z) : machine := mkMachine a (serial_start arr) (sched_init FRAME_HANDLERS).
