(** Model of the drivers that reach hardware by bus accesses: mem.c, comm/serial.c,
    comm/comm_serial.c, comm/comm_everdrive.c, comm/comm_everdrive_pro.c,
    comm/everdrive_led.c, sram/sram_ed_pro.c, sram/sram_ed_x7.c, sys_wraps.c, and on top of
    them sram/sram.c, sram/midi_fm_sram.c and comm.c:96-104, 122-127 for each transport.
    The hardware answers reads as it likes: the answers are an argument, and a function
    that wants more answers than there are is still waiting.  Log output is left out. *)
From Verif Require Import Base RingBufModel RxModel SerialModel SynthModel CrcModel SramModel.

(** ** Accesses *)
(** mem.c:3-21; VDP_setReg, SYS_setInterruptMaskLevel, Z80_requestBus, Z80_releaseBus *)
Inductive width := W8 | W16.
Inductive bus := Rd (w : width) (a v : Z) | Wr (w : width) (a v : Z) | Vdp (reg v : Z) | IntMask (level : Z) | Z80Bus (taken : bool).
Definition fit (w : width) (v : Z) : Z := match w with W8 => u8 v | W16 => u16 v end.

(** sram.c:14-33 *)
Inductive cart := NoCart | CartPro | CartX7.
(** Statics: serial.c:8-9 ([dv_cb]: the callback is set), comm_serial.c:8-10,
    everdrive_led.c:11, sram.c:35-36; and of SGDK the external interrupt callback, the
    interrupt mask level, the copies of the VDP registers and the Z80 bus. *)
Record drv := mkDrv {
  dv_port : Z; dv_cb : bool; dv_recv : bool; dv_ring : ring; dv_led : bool; dv_cart : cart; dv_taken : bool;
  dv_ext : bool; dv_mask : Z; dv_vdp : list Z; dv_bus : bool }.
Definition set_port v s := mkDrv v (dv_cb s) (dv_recv s) (dv_ring s) (dv_led s) (dv_cart s) (dv_taken s) (dv_ext s) (dv_mask s) (dv_vdp s) (dv_bus s).
Definition set_cb v s := mkDrv (dv_port s) v (dv_recv s) (dv_ring s) (dv_led s) (dv_cart s) (dv_taken s) (dv_ext s) (dv_mask s) (dv_vdp s) (dv_bus s).
Definition set_in v r s := mkDrv (dv_port s) (dv_cb s) v r (dv_led s) (dv_cart s) (dv_taken s) (dv_ext s) (dv_mask s) (dv_vdp s) (dv_bus s).
Definition set_led v s := mkDrv (dv_port s) (dv_cb s) (dv_recv s) (dv_ring s) v (dv_cart s) (dv_taken s) (dv_ext s) (dv_mask s) (dv_vdp s) (dv_bus s).
Definition set_taken v s := mkDrv (dv_port s) (dv_cb s) (dv_recv s) (dv_ring s) (dv_led s) (dv_cart s) v (dv_ext s) (dv_mask s) (dv_vdp s) (dv_bus s).
Definition set_ext v s := mkDrv (dv_port s) (dv_cb s) (dv_recv s) (dv_ring s) (dv_led s) (dv_cart s) (dv_taken s) v (dv_mask s) (dv_vdp s) (dv_bus s).
Definition set_mask v s := mkDrv (dv_port s) (dv_cb s) (dv_recv s) (dv_ring s) (dv_led s) (dv_cart s) (dv_taken s) (dv_ext s) v (dv_vdp s) (dv_bus s).
Definition set_vdp v s := mkDrv (dv_port s) (dv_cb s) (dv_recv s) (dv_ring s) (dv_led s) (dv_cart s) (dv_taken s) (dv_ext s) (dv_mask s) v (dv_bus s).
Definition set_bus v s := mkDrv (dv_port s) (dv_cb s) (dv_recv s) (dv_ring s) (dv_led s) (dv_cart s) (dv_taken s) (dv_ext s) (dv_mask s) (dv_vdp s) v.

(** ** Programs *)
Inductive bres (A : Type) := BDone (a : A) (s : drv) (rest : list Z) (o : list bus) | BWaits (o : list bus) | BFault (f : fault).
Arguments BDone {A}. Arguments BWaits {A}. Arguments BFault {A}.
Definition B (A : Type) : Type := drv -> list Z -> bres A.
Definition bret {A} (a : A) : B A := fun s ans => BDone a s ans [].
Definition bfail {A} (f : fault) : B A := fun _ _ => BFault f.
Definition bbind {A C} (m : B A) (k : A -> B C) : B C := fun s ans =>
  match m s ans with
  | BFault f => BFault f
  | BWaits o => BWaits o
  | BDone a s1 r1 o1 =>
      match k a s1 r1 with
      | BFault f => BFault f
      | BWaits o2 => BWaits (o1 ++ o2)
      | BDone b s2 r2 o2 => BDone b s2 r2 (o1 ++ o2)
      end
  end.
Declare Scope b_scope.
Delimit Scope b_scope with bus.
Notation "x <- c1 ;; c2" := (bbind c1 (fun x => c2)) (at level 61, c1 at next level, right associativity) : b_scope.
Notation "c1 ;; c2" := (bbind c1 (fun _ => c2)) (at level 61, right associativity) : b_scope.
Local Open Scope b_scope.
Definition bgets {A} (f : drv -> A) : B A := fun s ans => BDone (f s) s ans [].
Definition bmod (f : drv -> drv) : B unit := fun s ans => BDone tt (f s) ans [].
Definition bemit (e : bus) : B unit := fun s ans => BDone tt s ans [e].
Definition bwhen (b : bool) (m : B unit) : B unit := if b then m else bret tt.
(** mem.c:3-21 *)
Definition mem_read (w : width) (a : Z) : B Z := fun s ans =>
  match ans with [] => BWaits [] | v :: t => BDone (fit w v) s t [Rd w a (fit w v)] end.
Definition mem_write (w : width) (a v : Z) : B unit := bemit (Wr w a (fit w v)).

(** A loop whose body reads: it goes round at most once per answer. *)
Fixpoint rounds (n : nat) (body : B bool) : B unit :=
  match n with O => fun _ _ => BWaits [] | S n => again <- body ;; if again then rounds n body else bret tt end.
Definition loop (body : B bool) : B unit := fun s ans => rounds (S (length ans)) body s ans.
Definition wait_for (ready : B bool) : B unit := loop (r <- ready ;; bret (negb r)).

(** SGDK: VDP_getReg, VDP_setReg *)
Definition VDP_getReg (n : Z) : B Z := bgets (fun s => nth (Z.to_nat n) (dv_vdp s) 0).
Definition VDP_setReg (n v : Z) : B unit := bmod (fun s => set_vdp (zset (dv_vdp s) n (u8 v)) s) ;; bemit (Vdp n (u8 v)).

(** ** comm/serial.c *)
(** serial.h:4-12, serial.c:11-19 *)
Definition PORT_CTRL (p : Z) : Z := if p =? 0 then 0xA1000B else 0xA1000D.
Definition PORT_SCTRL (p : Z) : Z := if p =? 0 then 0xA10019 else 0xA1001F.
Definition PORT_TX (p : Z) : Z := if p =? 0 then 0xA10015 else 0xA1001B.
Definition PORT_RX (p : Z) : Z := if p =? 0 then 0xA10017 else 0xA1001D.
(** serial.h:14-26 *)
Definition SCTRL_SIN : Z := 0x20.
Definition SCTRL_SOUT : Z := 0x10.
Definition SCTRL_4800_BPS : Z := 0x00.
Definition SCTRL_TFUL : Z := 0x1.
Definition SCTRL_RRDY : Z := 0x2.
Definition SCTRL_RINT : Z := 0x8.
Definition CTRL_PCS_OUT : Z := 0x7F.
(** serial.c:41-44 *)
Definition serial_readyToReceive : B bool :=
  p <- bgets dv_port ;; v <- mem_read W8 (PORT_SCTRL p) ;; bret (negb (Z.land v SCTRL_RRDY =? 0)).
(** serial.c:46-49 *)
Definition serial_receive : B Z := p <- bgets dv_port ;; mem_read W8 (PORT_RX p).
(** serial.c:68-71 *)
Definition serial_send (data : Z) : B unit := p <- bgets dv_port ;; mem_write W8 (PORT_TX p) data.
(** serial.c:73-76 *)
Definition serial_readyToSend : B bool :=
  p <- bgets dv_port ;; v <- mem_read W8 (PORT_SCTRL p) ;; bret (Z.land v SCTRL_TFUL =? 0).

(** ** comm/comm_serial.c *)
(** comm_serial.c:26-37 *)
Definition update_buffer_round : B bool :=
  ready <- serial_readyToReceive ;;
  if ready then
    d <- serial_receive ;;
    fun s ans =>
      match ring_buf_write d (dv_ring s) with
      | Fault f => BFault f
      | Done st r _ => BDone (match st with RB_FULL => false | _ => true end) (set_in true r s) ans []
      end
  else bret false.
Definition update_buffer : B unit := loop update_buffer_round.
(** comm_serial.c:44-49 *)
Definition flush_round : B bool := ready <- serial_readyToReceive ;; if ready then _ <- serial_receive ;; bret true else bret false.
Definition flush_rrdy : B unit := loop flush_round.
(** comm_serial.c:51-60 with serial.c:56-66 and serial.c:51-54, one step after the other;
    [arr] is the content of ring_buf_arr. *)
Definition COMM_SERIAL_PORT : Z := 0.
Definition SERIAL_FLAGS : Z := Z.lor (Z.lor SCTRL_4800_BPS SCTRL_SIN) (Z.lor SCTRL_SOUT SCTRL_RINT).
Definition serial_init_steps (arr : list Z) : list (B unit) :=
  [ bmod (fun s => set_in (dv_recv s) (mkRing (Some arr) 0 0 512) s);
    bmod (set_port COMM_SERIAL_PORT);
    p <- bgets dv_port ;; mem_write W8 (PORT_SCTRL p) SERIAL_FLAGS;
    p <- bgets dv_port ;; mem_write W8 (PORT_CTRL p) CTRL_PCS_OUT;
    bmod (set_mask 1) ;; bemit (IntMask 1);
    v <- VDP_getReg 0xB ;; VDP_setReg 0xB (Z.lor v 0x08);
    bmod (set_ext true);
    bmod (set_cb true);
    flush_rrdy ].
(** The external interrupt: SGDK calls the callback that is set, serial.c:21-24; a
    readReadyCallback that is not set is a NULL pointer. *)
Definition ext_interrupt : B unit :=
  e <- bgets dv_ext ;; if e then cb <- bgets dv_cb ;; if cb then update_buffer else bfail F_null else bret tt.
(** comm_serial_init with interrupts between its steps. *)
Inductive bootev := BStep | BInt.
Fixpoint init_run (evs : list bootev) (steps : list (B unit)) : B unit :=
  match evs with
  | [] => bret tt
  | BInt :: t => ext_interrupt ;; init_run t steps
  | BStep :: t => match steps with [] => init_run t [] | x :: steps => x ;; init_run t steps end
  end.
(** comm_serial.c:93-96, 98-105 *)
Definition comm_serial_write_ready : B bool := serial_readyToSend.
Fixpoint comm_serial_write (data : list Z) : B unit :=
  match data with [] => bret tt | d :: t => wait_for comm_serial_write_ready ;; serial_send d ;; comm_serial_write t end.

(** ** comm/everdrive_led.c *)
Definition REG_CTRL : Z := 0xA130F0.
Definition CTRL_LED_ON : Z := 0x1000.
Definition CTRL_LED_OFF : Z := 0x0000.
Definition CTRL_UNPROTECT : Z := 0x8000.
(** everdrive_led.c:13-23 *)
Definition led_on : B unit := mem_write W16 REG_CTRL (Z.lor CTRL_LED_ON CTRL_UNPROTECT) ;; bmod (set_led true).
Definition led_off : B unit := mem_write W16 REG_CTRL (Z.lor CTRL_LED_OFF CTRL_UNPROTECT) ;; bmod (set_led false).
(** everdrive_led.c:30-42 *)
Definition everdrive_led_tick : B unit := l <- bgets dv_led ;; bwhen l led_off.
Definition everdrive_led_blink : B unit := l <- bgets dv_led ;; bwhen (negb l) led_on.

(** ** comm/comm_everdrive.c *)
Definition REG_USB : Z := 0xA130E2.
Definition REG_STE : Z := 0xA130E4.
Definition STE_USB_RD_RDY : Z := 4.
Definition STE_USB_WR_RDY : Z := 2.
(** comm_everdrive.c:40-43 *)
Definition comm_everdrive_read_ready : B bool := v <- mem_read W16 REG_STE ;; bret (negb (u8 (Z.land v STE_USB_RD_RDY) =? 0)).
(** comm_everdrive.c:45-49 *)
Definition comm_everdrive_read : B Z := everdrive_led_blink ;; v <- mem_read W16 REG_USB ;; bret (u8 v).
(** comm_everdrive.c:51-63 *)
Definition comm_everdrive_write_ready : B bool := v <- mem_read W16 REG_STE ;; bret (negb (u8 (Z.land v STE_USB_WR_RDY) =? 0)).
Fixpoint comm_everdrive_write (data : list Z) : B unit :=
  match data with [] => bret tt | d :: t => wait_for comm_everdrive_write_ready ;; mem_write W16 REG_USB d ;; comm_everdrive_write t end.

(** ** comm/comm_everdrive_pro.c *)
Definition REG_FIFO_DATA : Z := 0xA130D0.
Definition REG_FIFO_STAT : Z := 0xA130D2.
Definition FIFO_CPU_RXF : Z := 0x8000.
Definition FIFO_RXF_MSK : Z := 0x7FF.
Definition CMD_USB_WR : Z := 0x22.
(** comm_everdrive_pro.c:16-19 *)
Definition bi_fifo_busy : B bool := v <- mem_read W16 REG_FIFO_STAT ;; bret (negb (Z.land v FIFO_CPU_RXF =? 0)).
(** comm_everdrive_pro.c:21-44: [block] words are read (the loop is unrolled by four in
    the code), until there are [len]. *)
Fixpoint fifo_words (n : nat) : B (list Z) :=
  match n with O => bret [] | S n => v <- mem_read W16 REG_FIFO_DATA ;; r <- fifo_words n ;; bret (u8 v :: r) end.
Fixpoint fifo_blocks (n : nat) (len : Z) : B (list Z) :=
  if len =? 0 then bret []
  else match n with
       | O => fun _ _ => BWaits []
       | S n =>
           v <- mem_read W16 REG_FIFO_STAT ;;
           let block := Z.min (Z.land v FIFO_RXF_MSK) len in
           a <- fifo_words (Z.to_nat block) ;;
           b <- fifo_blocks n (len - block) ;;
           bret (a ++ b)
       end.
Definition bi_fifo_rd (len : Z) : B (list Z) := fun s ans => fifo_blocks (S (length ans)) len s ans.
(** comm_everdrive_pro.c:46-53 *)
Fixpoint bi_fifo_wr (data : list Z) : B unit :=
  match data with [] => bret tt | d :: t => mem_write W16 REG_FIFO_DATA d ;; bi_fifo_wr t end.
(** comm_everdrive_pro.c:55-63 *)
Definition bi_cmd_tx (cmd : Z) : B unit := bi_fifo_wr [0x2B; Z.lxor 0x2B 0xFF; cmd; Z.lxor cmd 0xFF].
(** comm_everdrive_pro.c:65-70; the length is a u16, high byte first in memory. *)
Definition bi_cmd_usb_wr (data : list Z) : B unit :=
  let len := u16 (Z.of_nat (length data)) in
  bi_cmd_tx CMD_USB_WR ;; bi_fifo_wr [len / 256; len mod 256] ;; bi_fifo_wr data.
(** comm_everdrive_pro.c:82-104 *)
Definition comm_everdrive_pro_read_ready : B bool := b <- bi_fifo_busy ;; bret (negb b).
Definition comm_everdrive_pro_read : B Z := everdrive_led_blink ;; d <- bi_fifo_rd 1 ;; bret (hd 0 d).
Definition comm_everdrive_pro_write_ready : B bool := bret true.
Definition comm_everdrive_pro_write (data : list Z) : B unit := bi_cmd_usb_wr data.

(** ** comm.c:96-104 and 122-127, with each of the three transports active *)
Inductive transport := TSerial | TX7 | TPro.
Definition comm_write (t : transport) (data : list Z) : B unit :=
  match t with
  | TSerial => wait_for comm_serial_write_ready ;; comm_serial_write data
  | TX7 => wait_for comm_everdrive_write_ready ;; comm_everdrive_write data
  | TPro => comm_everdrive_pro_write data
  end.
(** Reading from a cartridge (the serial port is read from the ring, SerialModel). *)
Inductive usb := UX7 | UPro.
Definition comm_read (u : usb) : B Z :=
  match u with
  | UX7 => wait_for comm_everdrive_read_ready ;; comm_everdrive_read
  | UPro => wait_for comm_everdrive_pro_read_ready ;; comm_everdrive_pro_read
  end.

(** ** sys_wraps.c:13-23 *)
Definition SYS_disableInts : B unit :=
  a <- VDP_getReg 0 ;; VDP_setReg 0 (Z.land a (Z.lnot 0x10)) ;; b <- VDP_getReg 1 ;; VDP_setReg 1 (Z.land b (Z.lnot 0x20)).
Definition SYS_enableInts : B unit :=
  a <- VDP_getReg 0 ;; VDP_setReg 0 (Z.lor a 0x10) ;; b <- VDP_getReg 1 ;; VDP_setReg 1 (Z.lor b 0x20).

(** ** sram/sram_ed_pro.c, sram/sram_ed_x7.c, sram/sram.c *)
Definition REG_SSF_CTRL : Z := 0xA130F0.
Definition REG_SSF_CTRL4 : Z := 0xA130F8.
Definition SSF_CTRL_UNLOCK : Z := 0x8000.
Definition SSF_CTRL_MEM_WRITE : Z := 0x2000.
Definition BANK_SRAM : Z := 31.
Definition BANK4 : Z := 4.
(** sram_ed_pro.c:4, sram_ed_x7.c:4 *)
Definition SRAM_BASE (c : cart) : option Z := match c with NoCart => None | CartPro => Some 0x200001 | CartX7 => Some 0x240001 end.
(** sram_ed_pro.c:13-23, sram_ed_x7.c:13-23 *)
Definition ed_enable (write : bool) : B unit :=
  mem_write W16 REG_SSF_CTRL (Z.lor SSF_CTRL_UNLOCK (if write then SSF_CTRL_MEM_WRITE else 0)) ;; mem_write W16 REG_SSF_CTRL4 BANK_SRAM.
Definition ed_disable : B unit := mem_write W16 REG_SSF_CTRL SSF_CTRL_UNLOCK ;; mem_write W16 REG_SSF_CTRL4 BANK4.
(** A call through sram_ops, sram.c:14-19 *)
Definition with_base {A} (k : Z -> B A) : B A := c <- bgets dv_cart ;; match SRAM_BASE c with Some base => k base | None => bfail F_null end.
(** sram.c:50-55 *)
Definition bus_enable (write : bool) : B unit :=
  SYS_disableInts ;;
  taken <- bgets dv_bus ;; bwhen (negb taken) (bemit (Z80Bus true)) ;; bmod (set_bus true) ;; bmod (set_taken taken) ;;
  with_base (fun _ => ed_enable write).
(** sram.c:57-65 *)
Definition bus_disable : B unit :=
  with_base (fun _ => ed_disable) ;;
  taken <- bgets dv_taken ;; bwhen taken (bemit (Z80Bus false) ;; bmod (set_bus false) ;; bmod (set_taken false)) ;;
  SYS_enableInts.
(** sram.c:67-75, sram_ed_pro.c:25-33, sram_ed_x7.c:25-33 *)
Definition bus_write (offset value : Z) : B unit := with_base (fun base => mem_write W8 (base + offset * 2) value).
Definition bus_read (offset : Z) : B Z := with_base (fun base => mem_read W8 (base + offset * 2)).

(** ** sram/midi_fm_sram.c *)
Definition is_present (c : cart) : bool := match c with NoCart => false | _ => true end.
(** midi_fm_sram.c:39-47 *)
Fixpoint bus_write_bytes (offset : Z) (l : list Z) : B unit :=
  match l with [] => bret tt | b :: t => bus_write offset b ;; _ <- bus_read offset ;; bus_write_bytes (u16 (offset + 1)) t end.
(** midi_fm_sram.c:19-49 *)
Definition bus_save_preset (program : Z) (p : preset) : B unit :=
  c <- bgets dv_cart ;;
  bwhen (is_present c) (bus_enable true ;; bus_write_bytes (slot_offset program) (slot_bytes p) ;; bus_disable).
(** midi_fm_sram.c:51-63 *)
Definition bus_clear_preset (program : Z) : B unit :=
  c <- bgets dv_cart ;;
  bwhen (is_present c) (bus_enable true ;; bus_write (slot_offset program) 0 ;; bus_write (slot_offset program + 1) 0 ;; bus_disable).
(** midi_fm_sram.c:80-82 *)
Fixpoint bus_read_bytes (offset : Z) (n : nat) : B (list Z) :=
  match n with O => bret [] | S m => b <- bus_read offset ;; t <- bus_read_bytes (offset + 1) m ;; bret (b :: t) end.
(** midi_fm_sram.c:72-92 *)
Definition bus_load_slot (program : Z) : B (option preset) :=
  let offset := slot_offset program in
  hi <- bus_read offset ;; lo <- bus_read (offset + 1) ;;
  if negb (Z.lor (Z.shiftl hi 8) lo =? 0x9E1D) then bret None
  else
    slot <- bus_read_bytes offset 36 ;;
    let crc := crc_calc_crc16 (firstn 34 slot) in
    let checksum := match skipn 34 slot with [a; b] => a * 256 + b | _ => 0 end in
    if negb (checksum =? crc) then bret None else bret (Some (preset_of_bytes (firstn 26 (skipn 3 slot)))).
Fixpoint bus_load_slots (programs : list Z) : B (list (option preset)) :=
  match programs with [] => bret [] | p :: t => x <- bus_load_slot p ;; r <- bus_load_slots t ;; bret (x :: r) end.
(** midi_fm_sram.c:65-98 *)
Definition bus_load_presets : B (list (option preset)) :=
  c <- bgets dv_cart ;;
  if negb (is_present c) then bret (repeat None 128)
  else bus_enable false ;; l <- bus_load_slots (zseq 0 128) ;; bus_disable ;; bret l.

(** ** Histories *)
Fixpoint in_turn (l : list (B unit)) : B unit := match l with [] => bret tt | m :: t => m ;; in_turn t end.
(** The serial port in use: receive interrupts, and a byte taken from the ring if there is
    one (comm_serial.c:67-91). *)
Inductive portev := PortInt | PortTake.
Definition port_take : B (list Z) := fun s ans =>
  if dv_recv s && ring_buf_can_read (dv_ring s) then
    match serial_read (dv_ring s) with Fault f => BFault f | Done d r _ => BDone [d] (set_in (dv_recv s) r s) ans [] end
  else BDone [] s ans [].
Definition port_step (e : portev) : B (list Z) := match e with PortInt => ext_interrupt ;; bret [] | PortTake => port_take end.
Fixpoint port_run (evs : list portev) : B (list Z) :=
  match evs with [] => bret [] | e :: t => a <- port_step e ;; b <- port_run t ;; bret (a ++ b) end.
(** Presets saved and cleared. *)
Definition bus_step (op : rop) : B unit := match op with RSave n p => bus_save_preset n p | RClear n => bus_clear_preset n end.
Definition bus_run (ops : list rop) : B unit := in_turn (map bus_step ops).
(** Bytes read from a cartridge, passes of the frame handler of everdrive_led.c, and presets
    saved or cleared. *)
Inductive lop := LRead (u : usb) | LFrame | LStore (op : rop).
Definition led_step (op : lop) : B unit := match op with LRead u => _ <- comm_read u ;; bret tt | LFrame => everdrive_led_tick | LStore op => bus_step op end.
Definition led_run (ops : list lop) : B unit := in_turn (map led_step ops).
