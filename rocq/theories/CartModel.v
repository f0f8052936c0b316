(** Model of how the interface finds a cartridge and chooses between it and the serial
    port, on the bus: comm_everdrive_init (comm/comm_everdrive.c:17-38),
    comm_everdrive_pro_init (comm/comm_everdrive_pro.c:72-80), sram_init (sram/sram.c:38-48),
    their order in main.c:19-30, and comm.c:63-104, 122-127 over the drivers of BusModel.v.
    Left out: comm_megawifi.c, mw_uart.c and comm_demo.c, here one further transport
    ([ViaOther]) that says by an argument whether it has a byte and makes no accesses. *)
From Verif Require Import Base RingBufModel SerialModel SynthModel SramModel BusModel.
Local Open Scope b_scope.

Definition set_cart (v : cart) (s : drv) : drv :=
  mkDrv (dv_port s) (dv_cb s) (dv_recv s) (dv_ring s) (dv_led s) v (dv_taken s) (dv_ext s) (dv_mask s) (dv_vdp s) (dv_bus s).

(** ** Start-up *)
(** sram.c:38-48; [x7], [pro]: what comm_everdrive_is_present and
    comm_everdrive_pro_is_present answer. *)
Definition storage_of (x7 pro : bool) : cart := if pro then CartPro else if x7 then CartX7 else NoCart.
Definition bus_sram_init (x7 pro : bool) : B unit := bmod (set_cart (storage_of x7 pro)) ;; bmod (set_taken false).
(** comm_everdrive.c:11-12, 31-32 *)
Definition IO_STATUS_HI_SD : Z := 0x00.
Definition IO_STATUS_HI_SDHC : Z := 0x40.
Definition comm_everdrive_init : B bool :=
  v <- mem_read W16 REG_STE ;; let status := u8 (Z.shiftr v 8) in bret ((status =? IO_STATUS_HI_SD) || (status =? IO_STATUS_HI_SDHC)).
(** comm_everdrive_pro.c:7, 11, 72-75 *)
Definition REG_SYS_STAT : Z := 0xA130D4.
Definition STAT_PRO_PRESENT : Z := 0x55A0.
Definition comm_everdrive_pro_init : B bool := v <- mem_read W16 REG_SYS_STAT ;; bret (Z.land v 0xFFF0 =? STAT_PRO_PRESENT).
(** main.c:19-30: midi_init (midi.c:110-124, midi_fm.c:43-57: sram_init, then the presets
    are loaded; both is_present flags are still the false of their initialisers,
    comm_everdrive.c:14 and comm_everdrive_pro.c:14), then comm_init (comm.c:63-69). *)
Definition power_up (arr : list Z) : B (bool * bool) :=
  bus_sram_init false false ;; _ <- bus_load_presets ;;
  x7 <- comm_everdrive_init ;; pro <- comm_everdrive_pro_init ;; in_turn (serial_init_steps arr) ;; bret (x7, pro).

(** ** The transports, comm.c:26-57 *)
Inductive way := ViaX7 | ViaPro | ViaSerial | ViaOther.
(** comm_serial.c:67-72 *)
Definition comm_serial_read_ready : B bool := bgets (fun s => dv_recv s && ring_buf_can_read (dv_ring s)).
(** comm_serial.c:74-91 *)
Definition comm_serial_read : B Z := fun s ans =>
  match serial_read (dv_ring s) with Fault f => BFault f | Done d r _ => BDone d (set_in (dv_recv s) r s) ans [] end.
Definition way_ready (other : bool) (w : way) : B bool :=
  match w with
  | ViaX7 => comm_everdrive_read_ready
  | ViaPro => comm_everdrive_pro_read_ready
  | ViaSerial => comm_serial_read_ready
  | ViaOther => bret other
  end.
Definition way_read (w : way) : B (list Z) :=
  match w with
  | ViaX7 => d <- comm_everdrive_read ;; bret [d]
  | ViaPro => d <- comm_everdrive_pro_read ;; bret [d]
  | ViaSerial => d <- comm_serial_read ;; bret [d]
  | ViaOther => bret []
  end.
Definition way_write (w : way) (data : list Z) : B unit :=
  match w with ViaX7 => comm_write TX7 data | ViaPro => comm_write TPro data | ViaSerial => comm_write TSerial data | ViaOther => bret tt end.

Section Loop.
Context (x7 pro : bool).
Definition way_present (w : way) : bool := match w with ViaX7 => x7 | ViaPro => pro | _ => true end.
(** comm.c:73-79: the scan of commTypes. *)
Fixpoint scan_ways (other : bool) (l : list way) : B (option way) :=
  match l with
  | [] => bret None
  | w :: t => if way_present w then r <- way_ready other w ;; if r then bret (Some w) else scan_ways other t else scan_ways other t
  end.
Definition commTypes : list way := [ViaX7; ViaPro; ViaSerial; ViaOther].
(** comm.c:71-89 (the idle counter left out) *)
Definition bus_read_ready (other : bool) (act : option way) : B (option way * bool) :=
  match act with
  | None => w <- scan_ways other commTypes ;; bret (w, match w with Some _ => true | None => false end)
  | Some w => r <- way_ready other w ;; bret (act, r)
  end.
(** comm_read_ready (comm.c:91-94); one turn of comm_read (comm.c:96-104); comm_write
    (comm.c:122-127); the frame handler of everdrive_led.c; presets saved or cleared; presets
    loaded by a reset (midi_fm.c:51-57); the interrupt of the serial port. *)
Inductive cop := KPoll (other : bool) | KRead (other : bool) | KWrite (data : list Z) | KFrame | KStore (op : rop) | KReset | KInt.
Definition cart_step (op : cop) (act : option way) : B (option way * list Z) :=
  match op with
  | KPoll other => r <- bus_read_ready other act ;; bret (fst r, [])
  | KRead other =>
      r <- bus_read_ready other act ;;
      if snd r then match fst r with Some w => d <- way_read w ;; bret (fst r, d) | None => bfail F_null end else bret (fst r, [])
  | KWrite data => match act with Some w => way_write w data ;; bret (act, []) | None => bfail F_null end
  | KFrame => everdrive_led_tick ;; bret (act, [])
  | KStore op => bus_step op ;; bret (act, [])
  | KReset => _ <- bus_load_presets ;; bret (act, [])
  | KInt => ext_interrupt ;; bret (act, [])
  end.
(** What is in use in the end, and all bytes read. *)
Fixpoint cart_run (ops : list cop) (act : option way) : B (option way * list Z) :=
  match ops with
  | [] => bret (act, [])
  | op :: t => a <- cart_step op act ;; b <- cart_run t (fst a) ;; bret (fst b, snd a ++ snd b)
  end.
End Loop.
