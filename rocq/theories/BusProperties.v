(** Property theorems about the drivers on the bus (C90-C97). *)
From Verif Require Import Base BaseLemmas RingBufModel MidiModel RxModel SerialModel SynthModel SynthSpec SramModel SramSpec SramProofs BusModel BusSpec BusProofs BusSerialProofs BusStoreProofs BusExampleProofs.
Local Open Scope b_scope.

(** ** C90: sending, to the serial port and over an EverDrive X7 *)
(** Whatever the status register answers: the bytes written to the data register are the
    message, in order (so far as it got), nothing else is touched, and every byte is
    written right after the transmitter was found free.  It gets to the end exactly when
    there are more such answers than bytes. *)
Theorem C90_sends : forall t data s ans, t <> TPro -> dv_port s = 0 -> Forall byte data ->
  match comm_write t data s ans with
  | BDone _ _ _ tr => written (tx_reg t) tr = data /\ only t tr /\ polite t tr
  | BWaits tr => (exists more, data = written (tx_reg t) tr ++ more) /\ only t tr /\ polite t tr
  | BFault _ => False
  end /\
  ((exists s' rest tr, comm_write t data s ans = BDone tt s' rest tr) <-> (length data < length (filter (fun v => tx_free t (fit (tx_width t) v)) ans))%nat).
Proof. exact sends. Qed.
Print Assumptions C90_sends.
Example C90_nonvacuous : comm_write TSerial [0xF0; 0xF7] (power_on NoCart) [1; 0; 0; 1; 1; 0x30; 7] =
  BDone tt (power_on NoCart) [7] [Rd W8 0xA10019 1; Rd W8 0xA10019 0; Rd W8 0xA10019 0; Wr W8 0xA10015 0xF0; Rd W8 0xA10019 1; Rd W8 0xA10019 1; Rd W8 0xA10019 0x30; Wr W8 0xA10015 0xF7].
Proof. exact sends_example. Qed.

(** ** C91: sending over an EverDrive PRO *)
Theorem C91_frames : forall msgs s ans, Forall (Forall byte) msgs -> Forall (fun d => Z.of_nat (length d) < 65536) msgs ->
  exists tr, in_turn (map (comm_write TPro) msgs) s ans = BDone tt s ans tr /\ usb_frames (written (tx_reg TPro) tr) msgs /\
    Forall (fun e => exists v, e = Wr W16 (tx_reg TPro) v) tr.
Proof. exact pro_frames. Qed.
Print Assumptions C91_frames.
(** The frames can be read in one way only. *)
Theorem C91_unique : forall bs l1 l2, usb_frames bs l1 -> usb_frames bs l2 -> l1 = l2.
Proof. exact frames_unique. Qed.
Print Assumptions C91_unique.
Example C91_nonvacuous : exists tr, in_turn (map (comm_write TPro) [[0xF0; 0xF7]; [1; 2; 3]]) (power_on CartPro) [] = BDone tt (power_on CartPro) [] tr /\
  written 0xA130D0 tr = [0x2B; 0xD4; 0x22; 0xDD; 0; 2; 0xF0; 0xF7; 0x2B; 0xD4; 0x22; 0xDD; 0; 3; 1; 2; 3].
Proof. exact frames_example. Qed.

(** ** C92: reading from a cartridge *)
Theorem C92_one : forall u s ans v s' rest tr, comm_read u s ans = BDone v s' rest tr -> takes_one u tr v.
Proof. exact reads_one. Qed.
Print Assumptions C92_one.
(** Any number of bytes from the FIFO of an EverDrive PRO. *)
Theorem C92_fifo : forall len s ans l s' rest tr, 0 <= len -> bi_fifo_rd len s ans = BDone l s' rest tr ->
  Z.of_nat (length l) = len /\ l = map (fun w => w mod 256) (fetched 0xA130D0 tr) /\ fifo_fair 0 tr.
Proof. exact fifo_read. Qed.
Print Assumptions C92_fifo.
Example C92_nonvacuous : comm_read UX7 (power_on CartX7) [0; 4; 0x190] = BDone 0x90 (set_led true (power_on CartX7)) []
  [Rd W16 0xA130E4 0; Rd W16 0xA130E4 4; Wr W16 0xA130F0 0x9000; Rd W16 0xA130E2 0x190].
Proof. exact reads_example. Qed.
Example C92_fifo_nonvacuous : exists tr, bi_fifo_rd 3 (power_on CartPro) [0x8000; 2; 0x90; 0x40; 0; 7; 0x7F] = BDone [0x90; 0x40; 0x7F] (power_on CartPro) [] tr /\
  tr = [Rd W16 0xA130D2 0x8000; Rd W16 0xA130D2 2; Rd W16 0xA130D0 0x90; Rd W16 0xA130D0 0x40; Rd W16 0xA130D2 0; Rd W16 0xA130D2 7; Rd W16 0xA130D0 0x7F].
Proof. exact fifo_example. Qed.

(** ** C93: the cartridge's light *)
(** False with presets in play: saving or clearing one writes the light's register. *)
Theorem C93_refuted : ~ (forall ops s ans s' rest tr, dv_led s = false -> led_run ops s ans = BDone tt s' rest tr -> lit tr = read_since false ops).
Proof. intros H. destruct light_out as (s' & tr & E & L & R). specialize (H _ _ _ _ _ _ (eq_refl : dv_led (power_on CartX7) = false) E). congruence. Qed.
Print Assumptions C93_refuted.
(** Missing: histories in which presets are saved or cleared. *)
Theorem C93_light_partial : forall ops s ans s' rest tr, Forall no_store ops -> dv_led s = false -> led_run ops s ans = BDone tt s' rest tr ->
  lit tr = read_since false ops /\ Forall (fun v => v = 0x8000 \/ v = 0x9000) (written 0xA130F0 tr).
Proof. exact light. Qed.
Print Assumptions C93_light_partial.
Example C93_nonvacuous : exists s' tr, led_run [LRead UX7; LRead UX7; LFrame; LRead UX7] (power_on CartX7) [4; 1; 4; 2; 4; 3] = BDone tt s' [] tr /\ lit tr = true /\ written 0xA130F0 tr = [0x9000; 0x8000; 0x9000].
Proof. exact light_example. Qed.

(** ** C94: receiving by interrupt *)
Theorem C94_received : forall arr s junk a0 evs ls ans, length arr = 512%nat -> offers junk a0 -> offers_all ls ans -> interrupts evs = length ls -> within 511 evs ls 0 ->
  exists s' tr, (in_turn (serial_init_steps arr) ;; port_run evs) s (a0 ++ ans) = BDone (taken_out evs ls []) s' [] tr /\
    fetched 0xA10017 tr = junk ++ concat ls /\ rx_polite tr /\ ring_holds (dv_ring s') (left_over evs ls []).
Proof. exact received. Qed.
Print Assumptions C94_received.
(** When there is no room, the byte that does not fit is lost and the rest stay in the port. *)
Theorem C94_overrun : forall arr s junk a0 evs ls ans l more, length arr = 512%nat -> offers junk a0 -> offers_all ls ans -> interrupts evs = length ls -> within 511 evs ls 0 -> offers l more ->
  let q := left_over evs ls [] in
  exists s1 tr1 s2 rest tr2, (in_turn (serial_init_steps arr) ;; port_run evs) s (a0 ++ ans) = BDone (taken_out evs ls []) s1 [] tr1 /\
    ext_interrupt s1 more = BDone tt s2 rest tr2 /\ ring_holds (dv_ring s2) (q ++ firstn (511 - length q) l) /\ fetched 0xA10017 tr2 = firstn (S (511 - length q)) l.
Proof. exact overrun. Qed.
Print Assumptions C94_overrun.
Example C94_nonvacuous : offers [] [0] /\ offers_all [[0x90; 0x40]; [0x7F]] ([2; 0x90; 2; 0x40; 0] ++ [2; 0x7F; 0] ++ []) /\
  interrupts [PortInt; PortTake; PortInt; PortTake; PortTake; PortTake] = 2%nat /\ within 511 [PortInt; PortTake; PortInt; PortTake; PortTake; PortTake] [[0x90; 0x40]; [0x7F]] 0 /\
  taken_out [PortInt; PortTake; PortInt; PortTake; PortTake; PortTake] [[0x90; 0x40]; [0x7F]] [] = [0x90; 0x40; 0x7F].
Proof. exact received_example. Qed.
Example C94_overrun_nonvacuous : let l := repeat 0x40 512 in offers l (flat_map (fun b => [2; b]) l ++ [0]) /\ left_over [] [] [] = [] /\ firstn (511 - 0) l <> l.
Proof. exact overrun_example. Qed.

(** ** C95: interrupts during start-up *)
(** False: between the seventh and the eighth step of comm_serial_init interrupts can be
    delivered and the callback they call is still NULL. *)
Theorem C95_refuted : ~ (forall arr s evs ans, length arr = 512%nat -> length (dv_vdp s) = 24%nat -> dv_ext s = false -> dv_cb s = false ->
  (forall k, In k (int_times 0 evs) -> forall s1 rest tr, init_run (repeat BStep k) (serial_init_steps arr) s ans = BDone tt s1 rest tr -> interruptible s1 tr) ->
  forall f, init_run evs (serial_init_steps arr) s ans <> BFault f).
Proof.
  intros H. destruct (seven (repeat 0 512) (power_on NoCart) [] eq_refl eq_refl) as (s1 & tr & E & I & F).
  refine (H (repeat 0 512) (power_on NoCart) (repeat BStep 7 ++ [BInt]) [] eq_refl eq_refl eq_refl eq_refl _ F_null F).
  intros k [<- |[]] s2 rest tr2 E2. rewrite E in E2. injection E2 as <- <- <-. exact I.
Qed.
Print Assumptions C95_refuted.
(** At any other moment interrupts do no harm, and after the last step they are received.
    Missing: interrupts after exactly seven steps. *)
Theorem C95_startup_partial : forall arr s evs ans, length arr = 512%nat -> length (dv_vdp s) = 24%nat -> dv_ext s = false -> ~ In 7%nat (int_times 0 evs) ->
  match init_run evs (serial_init_steps arr) s ans with
  | BFault _ => False
  | BWaits _ => True
  | BDone _ s' _ tr => (9 <= length (filter (fun e => match e with BStep => true | BInt => false end) evs))%nat -> interruptible s' tr /\ dv_cb s' = true
  end.
Proof. exact startup_safe. Qed.
Print Assumptions C95_startup_partial.
Example C95_nonvacuous : ~ In 7%nat (int_times 0 ([BStep; BInt] ++ repeat BStep 7 ++ [BInt; BStep; BInt])) /\ length (dv_vdp (power_on NoCart)) = 24%nat /\ dv_ext (power_on NoCart) = false /\ dv_cb (power_on NoCart) = false.
Proof. exact startup_example. Qed.

(** ** C96: saved presets, on the bus *)
(** [l0] is what a start of the machine would find now, [l] what it would find after the
    presets in [ops] were saved and cleared. *)
Theorem C96_map : forall ops s c ans0 l0 s0 rest0 tr0 ans l s' rest tr, ready_cart s c -> Forall rop_ok ops ->
  bus_load_presets s ans0 = BDone l0 s0 rest0 tr0 -> honest (base_of (dv_cart s)) c tr0 ->
  (bus_run ops ;; bus_load_presets) s ans = BDone l s' rest tr -> honest (base_of (dv_cart s)) c tr ->
  forall n, is_program n -> zget l n = Some (fold_left table_step ops (fun k => nth (Z.to_nat k) l0 None) n).
Proof. exact bus_map. Qed.
Print Assumptions C96_map.
(** Memory is accessed while it is mapped, and written while it can be; afterwards the
    program is back and the memory protected. *)
Theorem C96_legal : forall ops s c ans s' rest tr, ready_cart s c -> Forall rop_ok ops ->
  (bus_run ops ;; _ <- bus_load_presets ;; bret tt) s ans = BDone tt s' rest tr -> honest (base_of (dv_cart s)) c tr ->
  legal (base_of (dv_cart s)) c tr /\ tidy (cart_after (base_of (dv_cart s)) c tr).
Proof. intros ops s c ans s' rest tr H Ho E Hh. destruct (bus_legal ops s c ans s' rest tr H Ho E Hh) as (L & T & _). auto. Qed.
Print Assumptions C96_legal.
(** There is such a run. *)
Theorem C96_possible : forall ops s c, ready_cart s c -> Forall rop_ok ops -> exists ans l s' tr, (bus_run ops ;; bus_load_presets) s ans = BDone l s' [] tr /\ honest (base_of (dv_cart s)) c tr.
Proof. exact bus_possible. Qed.
Print Assumptions C96_possible.
(** Without a cartridge the bus is left alone. *)
Theorem C96_absent : forall ops s ans, dv_cart s = NoCart -> (bus_run ops ;; bus_load_presets) s ans = BDone (repeat None 128) s ans [].
Proof. exact bus_absent. Qed.
Print Assumptions C96_absent.
Example C96_nonvacuous : exists ans0 l0 s0 tr0 ans l s' tr, let s := power_on CartX7 in let c := mkCartridge 0x8000 4 (repeat 0 (Z.to_nat 8192)) in
  ready_cart s c /\ Forall rop_ok two_saves /\ bus_load_presets s ans0 = BDone l0 s0 [] tr0 /\ honest (base_of (dv_cart s)) c tr0 /\
  (bus_run two_saves ;; bus_load_presets) s ans = BDone l s' [] tr /\ honest (base_of (dv_cart s)) c tr /\ zget l 5 = Some (Some (demo_preset 4)) /\ zget l 6 = Some None.
Proof. exact bus_example. Qed.

(** ** C97: interrupts while saved memory is mapped *)
(** The screen's and the line interrupt are off, the serial port's as before. *)
Theorem C97_quiet : forall ops s c ans s' rest tr, ready_cart s c -> Forall rop_ok ops ->
  (bus_run ops ;; _ <- bus_load_presets ;; bret tt) s ans = BDone tt s' rest tr -> honest (base_of (dv_cart s)) c tr ->
  undisturbed_access (dv_vdp s) (dv_vdp s) tr /\ dv_vdp s' = vdp_after (dv_vdp s) tr /\ like (dv_vdp s) (dv_vdp s').
Proof. intros ops s c ans s' rest tr H Ho E Hh. destruct (bus_legal ops s c ans s' rest tr H Ho E Hh) as (_ & _ & U & V & L & _). auto. Qed.
Print Assumptions C97_quiet.
(** "Afterwards the registers are as before" is false: the line interrupt is on. *)
Theorem C97_restored_refuted : ~ (forall ops s c ans s' rest tr, ready_cart s c -> Forall rop_ok ops ->
  (bus_run ops ;; _ <- bus_load_presets ;; bret tt) s ans = BDone tt s' rest tr -> honest (base_of (dv_cart s)) c tr -> forall n, 0 <= n -> reg (dv_vdp s') n = reg (dv_vdp s) n).
Proof.
  intros H. destruct not_restored as (s & c & ans & s' & tr & R & E & Hh & B0 & B1).
  specialize (H two_saves s c ans s' [] tr R two_saves_ok E Hh 0 ltac:(lia)). congruence.
Qed.
Print Assumptions C97_restored_refuted.
(** Missing: machines in which one of the two interrupts was off. *)
Theorem C97_restored_partial : forall ops s c ans s' rest tr, ready_cart s c -> Forall rop_ok ops -> Z.testbit (reg (dv_vdp s) 0) 4 = true -> Z.testbit (reg (dv_vdp s) 1) 5 = true ->
  (bus_run ops ;; _ <- bus_load_presets ;; bret tt) s ans = BDone tt s' rest tr -> honest (base_of (dv_cart s)) c tr -> forall n, 0 <= n -> reg (dv_vdp s') n = reg (dv_vdp s) n.
Proof. exact bus_restored. Qed.
Print Assumptions C97_restored_partial.
Example C97_nonvacuous : exists s c ans s' tr, ready_cart s c /\ (bus_run two_saves ;; _ <- bus_load_presets ;; bret tt) s ans = BDone tt s' [] tr /\ honest (base_of (dv_cart s)) c tr /\
  Z.testbit (reg (dv_vdp s) 0) 4 = true /\ Z.testbit (reg (dv_vdp s) 1) 5 = true.
Proof. exact restored_example. Qed.
