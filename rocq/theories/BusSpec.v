(** What is expected of the drivers on the bus. *)
From Verif Require Import Base RingBufModel MidiModel RxModel SerialModel SynthModel SramModel SramSpec BusModel.

Definition byte (b : Z) : Prop := 0 <= b < 256.

(** ** Sending *)
(** What is written to register [a]. *)
Definition written (a : Z) (tr : list bus) : list Z :=
  flat_map (fun e => match e with Wr _ b v => if b =? a then [v] else [] | _ => [] end) tr.
(** The second controller port's transmitter and the USB port of an EverDrive X7: data
    register, status register, and what the status says when the transmitter is free. *)
Definition tx_reg (t : transport) : Z := match t with TSerial => 0xA10015 | TX7 => 0xA130E2 | TPro => 0xA130D0 end.
Definition tx_status (t : transport) : Z := match t with TSerial => 0xA10019 | _ => 0xA130E4 end.
Definition tx_width (t : transport) : width := match t with TSerial => W8 | _ => W16 end.
Definition tx_free (t : transport) (v : Z) : bool := match t with TSerial => negb (Z.testbit v 0) | _ => Z.testbit v 1 end.
(** Data are written only when the last access found the transmitter free. *)
Definition polite (t : transport) (tr : list bus) : Prop :=
  forall pre w v post, tr = pre ++ Wr w (tx_reg t) v :: post -> exists pre' x, pre = pre' ++ [Rd (tx_width t) (tx_status t) x] /\ tx_free t x = true.
(** Only the two registers are touched. *)
Definition only (t : transport) (tr : list bus) : Prop :=
  Forall (fun e => exists v, e = Rd (tx_width t) (tx_status t) v \/ e = Wr (tx_width t) (tx_reg t) v) tr.

(** The frames an EverDrive PRO understands as "send this over USB": '+', its complement,
    the command, its complement, the length (two bytes, high byte first), the data. *)
Inductive usb_frames : list Z -> list (list Z) -> Prop :=
| frames_none : usb_frames [] []
| frames_more hi lo d bs l : Z.of_nat (length d) = hi * 256 + lo -> 0 <= lo < 256 -> usb_frames bs l ->
    usb_frames (0x2B :: 0xD4 :: 0x22 :: 0xDD :: hi :: lo :: d ++ bs) (d :: l).

(** ** Reading from a cartridge *)
Definition rx_reg (u : usb) : Z := match u with UX7 => 0xA130E2 | UPro => 0xA130D0 end.
Definition rx_status (u : usb) : Z := match u with UX7 => 0xA130E4 | UPro => 0xA130D2 end.
(** The status announces data (a flag; the number of words in the lower 11 bits). *)
Definition announces (u : usb) (v : Z) : Prop := match u with UX7 => Z.testbit v 2 = true | UPro => v mod 2048 <> 0 end.
Definition is_read_of (a : Z) (e : bus) : Prop := exists w v, e = Rd w a v.
Definition is_read (e : bus) : Prop := exists w a v, e = Rd w a v.
(** The data register is read once, at the end, and the last read before it announced data. *)
Definition takes_one (u : usb) (tr : list bus) (v : Z) : Prop :=
  exists pre mid x y, tr = pre ++ Rd W16 (rx_status u) x :: mid ++ [Rd W16 (rx_reg u) y] /\ announces u x /\ v = y mod 256 /\
    Forall (fun e => ~ is_read_of (rx_reg u) e) (pre ++ mid) /\ Forall (fun e => ~ is_read e) mid.
(** The words read from the FIFO of an EverDrive PRO were there: [left] is what the last
    status read announced, less what was read since. *)
Fixpoint fifo_fair (left : Z) (tr : list bus) : Prop :=
  match tr with
  | [] => True
  | Rd _ a v :: t => if a =? 0xA130D2 then fifo_fair (v mod 2048) t else if a =? 0xA130D0 then 0 < left /\ fifo_fair (left - 1) t else fifo_fair left t
  | _ :: t => fifo_fair left t
  end.
Definition fetched (a : Z) (tr : list bus) : list Z :=
  flat_map (fun e => match e with Rd _ b v => if b =? a then [v] else [] | _ => [] end) tr.

(** ** The light *)
(** It is on after the accesses [tr], if it was off before. *)
Definition lit (tr : list bus) : bool := match rev (written 0xA130F0 tr) with [] => false | v :: _ => Z.testbit v 12 end.
(** A byte has been read since the last frame. *)
Fixpoint read_since (now : bool) (ops : list lop) : bool :=
  match ops with [] => now | LRead _ :: t => read_since true t | LFrame :: t => read_since false t | LStore _ :: t => read_since now t end.
Definition no_store (op : lop) : Prop := match op with LStore _ => False | _ => True end.

(** ** Receiving by interrupt *)
(** The answers when bytes [l] wait in the port: a status with the receive flag before
    each byte, and one without it at the end. *)
Inductive offers : list Z -> list Z -> Prop :=
| offers_none v : Z.testbit v 1 = false -> byte v -> offers [] [v]
| offers_byte v b l a : Z.testbit v 1 = true -> byte v -> byte b -> offers l a -> offers (b :: l) (v :: b :: a).
(** One interrupt after the other. *)
Inductive offers_all : list (list Z) -> list Z -> Prop :=
| offers_over : offers_all [] []
| offers_next l ls a b : offers l a -> offers_all ls b -> offers_all (l :: ls) (a ++ b).
(** A queue without limit that the interrupts fill with [ls]: what is taken out of it. *)
Fixpoint taken_out (evs : list portev) (ls : list (list Z)) (q : list Z) : list Z :=
  match evs with
  | [] => []
  | PortInt :: t => taken_out t (tl ls) (q ++ hd [] ls)
  | PortTake :: t => match q with [] => taken_out t ls [] | x :: q => x :: taken_out t ls q end
  end.
(** What is left in it. *)
Fixpoint left_over (evs : list portev) (ls : list (list Z)) (q : list Z) : list Z :=
  match evs with
  | [] => q
  | PortInt :: t => left_over t (tl ls) (q ++ hd [] ls)
  | PortTake :: t => left_over t ls (tl q)
  end.
(** It never holds more than [cap] bytes. *)
Fixpoint within (cap : nat) (evs : list portev) (ls : list (list Z)) (n : nat) : Prop :=
  match evs with
  | [] => True
  | PortInt :: t => (n + length (hd [] ls) <= cap)%nat /\ within cap t (tl ls) (n + length (hd [] ls))
  | PortTake :: t => within cap t ls (pred n)
  end.
Definition interrupts (evs : list portev) : nat := length (filter (fun e => match e with PortInt => true | _ => false end) evs).
(** The receive register is read only when the last access found a byte in it. *)
Definition rx_polite (tr : list bus) : Prop :=
  forall pre v post, tr = pre ++ Rd W8 0xA10017 v :: post -> exists pre' x, pre = pre' ++ [Rd W8 0xA10019 x] /\ Z.testbit x 1 = true.
(** The ring's content, oldest byte first. *)
Definition ring_holds (r : ring) (q : list Z) : Prop :=
  exists r', ring_run (repeat RRead (length q) ++ [RRead]) r = Done (map (fun b => ResRead RB_OK (Some b)) q ++ [ResRead RB_EMPTY None]) r' [].
(** Interrupts can be delivered: the port and the VDP ask for them, the processor's mask
    level is below two, and a callback is set. *)
Definition interruptible (s : drv) (tr : list bus) : Prop :=
  (exists v, written 0xA10019 tr = [v] /\ Z.testbit v 3 = true) /\ Z.testbit (nth 11 (dv_vdp s) 0) 3 = true /\ dv_mask s < 2 /\ dv_ext s = true.
(** The steps done when each interrupt comes. *)
Fixpoint int_times (done : nat) (evs : list bootev) : list nat :=
  match evs with [] => [] | BStep :: t => int_times (S done) t | BInt :: t => done :: int_times done t end.

(** ** Saved memory *)
(** A cartridge: control register, what is mapped at 0x200000, saved memory.  It is at
    every second address from [base], when bank 31 is mapped, and can be written when
    bit 13 of the control register is set. *)
Record cartridge := mkCartridge { ct_ctrl : Z; ct_bank : Z; ct_mem : list Z }.
Definition saved_at (base a : Z) : option Z := if (base <=? a) && ((a - base) mod 2 =? 0) then Some ((a - base) / 2) else None.
Definition cart_step (base : Z) (c : cartridge) (e : bus) : cartridge :=
  match e with
  | Wr W16 a v => if a =? 0xA130F0 then mkCartridge v (ct_bank c) (ct_mem c) else if a =? 0xA130F8 then mkCartridge (ct_ctrl c) v (ct_mem c) else c
  | Wr W8 a v =>
      match saved_at base a with
      | Some i => if (ct_bank c =? 31) && Z.testbit (ct_ctrl c) 13 then mkCartridge (ct_ctrl c) (ct_bank c) (zset (ct_mem c) i v) else c
      | None => c
      end
  | _ => c
  end.
Definition cart_after (base : Z) (c : cartridge) (tr : list bus) : cartridge := fold_left (cart_step base) tr c.
(** Reads of mapped memory are answered with its content. *)
Fixpoint honest (base : Z) (c : cartridge) (tr : list bus) : Prop :=
  match tr with
  | [] => True
  | e :: t =>
      match e with
      | Rd W8 a v => forall i x, saved_at base a = Some i -> ct_bank c = 31 -> zget (ct_mem c) i = Some x -> v = x
      | _ => True
      end /\ honest base (cart_step base c e) t
  end.
(** Every access to a byte hits saved memory, while it is mapped, and writes find it
    writable. *)
Fixpoint legal (base : Z) (c : cartridge) (tr : list bus) : Prop :=
  match tr with
  | [] => True
  | e :: t =>
      match e with
      | Rd W8 a _ => ct_bank c = 31 /\ exists i, saved_at base a = Some i /\ 0 <= i < Z.of_nat (length (ct_mem c))
      | Wr W8 a _ => ct_bank c = 31 /\ Z.testbit (ct_ctrl c) 13 = true /\ exists i, saved_at base a = Some i /\ 0 <= i < Z.of_nat (length (ct_mem c))
      | _ => True
      end /\ legal base (cart_step base c e) t
  end.
(** It holds at least 4640 bytes. *)
Definition cart_ok (c : cartridge) : Prop := (4640 <= length (ct_mem c))%nat /\ Forall byte (ct_mem c).
(** The cartridge in its normal state: program mapped, saved memory write-protected. *)
Definition tidy (c : cartridge) : Prop := Z.testbit (ct_ctrl c) 13 = false /\ ct_bank c = 4.
(** A machine with a cartridge in it, and all VDP registers. *)
Definition ready_cart (s : drv) (c : cartridge) : Prop := cart_ok c /\ tidy c /\ dv_cart s <> NoCart /\ length (dv_vdp s) = 24%nat /\ Forall byte (dv_vdp s).
(** What the drivers of SramModel are to the drivers on the bus. *)
Definition same_store (s : drv) (c : cartridge) (r : sram) : Prop :=
  sr_present r = is_present (dv_cart s) /\ sr_mem r = ct_mem c /\ sr_taken r = dv_taken s /\ sr_bus r = dv_bus s.
Definition base_of (k : cart) : Z := match k with CartX7 => 0x240001 | _ => 0x200001 end.

(** ** Interrupts during the access *)
(** The VDP registers after the accesses [tr]. *)
Definition vdp_after (regs : list Z) (tr : list bus) : list Z :=
  fold_left (fun l e => match e with Vdp n v => zset l n v | _ => l end) tr regs.
Definition reg (regs : list Z) (n : Z) : Z := nth (Z.to_nat n) regs 0.
(** The registers [b] are the registers [a] but for the two bits that switch the line and
    screen interrupts. *)
Definition like (a b : list Z) : Prop :=
  forall n i, 0 <= n -> 0 <= i -> ~ (n = 0 /\ i = 4) -> ~ (n = 1 /\ i = 5) -> Z.testbit (reg b n) i = Z.testbit (reg a n) i.
(** Screen and line interrupts are off, the serial port's as before, whenever memory is
    accessed. *)
Fixpoint undisturbed_access (regs0 regs : list Z) (tr : list bus) : Prop :=
  match tr with
  | [] => True
  | e :: t =>
      match e with
      | Rd W8 _ _ | Wr W8 _ _ => Z.testbit (reg regs 0) 4 = false /\ Z.testbit (reg regs 1) 5 = false /\ reg regs 11 = reg regs0 11
      | _ => True
      end /\ undisturbed_access regs0 (vdp_after regs [e]) t
  end.
