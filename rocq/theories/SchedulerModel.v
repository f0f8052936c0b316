(** Model of scheduler.c at the granularity of the accesses to the volatile
    [frame] counter, which the vertical-blank interrupt increments. *)
From Verif Require Import Base.

Definition MAX_TICK_HANDLERS := 3.    (* scheduler.c:9 *)
Definition MAX_FRAME_HANDLERS := 6.   (* scheduler.c:10 *)

(** Registration state: the handler tables (scheduler.c:12-13,18-19). Handlers
    are identified by a number. *)
Record regs := mkRegs { rg_tick : list Z; rg_frame : list Z }.

(** scheduler_addTickHandler, scheduler.c:76-83 *)
Definition add_tick_handler (h : Z) : M regs unit :=
  r <- get ;;
  if Z.of_nat (length (rg_tick r)) =? MAX_TICK_HANDLERS then fail F_die
  else put (mkRegs (rg_tick r ++ [h]) (rg_frame r)).

(** scheduler_addFrameHandler, scheduler.c:85-92 *)
Definition add_frame_handler (h : Z) : M regs unit :=
  r <- get ;;
  if Z.of_nat (length (rg_frame r)) =? MAX_FRAME_HANDLERS then fail F_die
  else put (mkRegs (rg_tick r) (rg_frame r ++ [h])).

(** Handler numbers used at start-up. *)
Definition H_psg_tick := 0.       (* midi_psg.c:62 *)
Definition H_midi_tick := 1.      (* midi.c:115 *)
Definition H_ui_update := 2.      (* ui.c:121 *)
Definition H_megawifi_tick := 3.  (* comm/comm_megawifi.c:75 *)
Definition H_megawifi_vsync := 4. (* comm/comm_megawifi.c:76 *)
Definition H_demo_vsync := 5.     (* comm/comm_demo.c:28 *)
Definition H_led_tick := 6.       (* comm/everdrive_led.c:27 *)
Definition H_midi_rx := 7.        (* midi_rx.c:48 *)

(** Registrations in the order main performs them (main.c:18-29: midi_init,
    ui_init, comm_init, everdrive_led_init, midi_rx_init; comm_init initialises
    the transports in the order of comm/comm.c:43-57). [mw] is the build option
    that includes the MegaWiFi transport (comm/comm.c:53-55). *)
Definition boot_registrations (mw : bool) : M regs unit :=
  add_frame_handler H_psg_tick ;;
  add_frame_handler H_midi_tick ;;
  add_frame_handler H_ui_update ;;
  when mw (add_tick_handler H_megawifi_tick ;; add_frame_handler H_megawifi_vsync) ;;
  add_frame_handler H_demo_vsync ;;
  add_frame_handler H_led_tick ;;
  add_tick_handler H_midi_rx.

(** ** The running scheduler *)
(** Program counter of scheduler_tick (scheduler.c:60-67). *)
Inductive spc :=
| PTick                  (* line 62: on_tick *)
| PCmp                   (* line 63: load frame, compare with previousFrame *)
| PDelta                 (* line 64: load frame, compute the u16 delta *)
| PCall (i : nat) (d : Z)  (* lines 37-39: about to call handler i *)
| PLoad                  (* line 65: load frame *)
| PStore (v : Z).        (* line 65: store previousFrame *)

Record sched := mkSched { sc_frame : Z; sc_prev : Z; sc_ticks : Z; sc_n : nat; sc_pc : spc }.

(** What happens: a vertical blank (flagged when it falls between the load at
    line 64 and the load at line 65), a handler call, a round of tick handlers. *)
Inductive sobs := OVsync (inside : bool) | OCall (i : nat) (d : Z) | OTick.

Inductive slbl := LVsync | LMain.

Definition inside_pc (p : spc) : bool :=
  match p with PCall _ _ | PLoad => true | _ => false end.

Definition set_pc (s : sched) (p : spc) : sched :=
  mkSched (sc_frame s) (sc_prev s) (sc_ticks s) (sc_n s) p.

(** After the last handler the loop of on_frame ends. *)
Definition next_call (n i : nat) (d : Z) : spc := if Nat.ltb i n then PCall i d else PLoad.

Definition sched_step (s : sched) (l : slbl) : sched * list sobs :=
  match l with
  | LVsync => (* scheduler_vsync, scheduler.c:30-33 *)
      (mkSched (u16 (sc_frame s + 1)) (sc_prev s) (sc_ticks s) (sc_n s) (sc_pc s),
       [OVsync (inside_pc (sc_pc s))])
  | LMain =>
      match sc_pc s with
      | PTick => (mkSched (sc_frame s) (sc_prev s) (u16 (sc_ticks s + 1)) (sc_n s) PCmp, [OTick])
      | PCmp => (set_pc s (if sc_frame s =? sc_prev s then PTick else PDelta), [])
      | PDelta => (set_pc s (next_call (sc_n s) 0 (u16 (sc_frame s - sc_prev s))), [])
      | PCall i d => (set_pc s (next_call (sc_n s) (S i) d), [OCall i d])
      | PLoad => (set_pc s (PStore (sc_frame s)), [])
      | PStore v => (mkSched (sc_frame s) v (sc_ticks s) (sc_n s) PTick, [])
      end
  end.

Fixpoint sched_run (s : sched) (ls : list slbl) : sched * list sobs :=
  match ls with
  | [] => (s, [])
  | l :: t => let (s1, o1) := sched_step s l in
              let (s2, o2) := sched_run s1 t in (s2, o1 ++ o2)
  end.

(** scheduler_init, scheduler.c:21-28, followed by [n] registrations. *)
Definition sched_init (n : nat) : sched := mkSched 0 0 0 n PTick.
