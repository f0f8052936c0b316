(** Model of src/sram/sram.c and src/sram/midi_fm_sram.c: FM presets kept in
    cartridge SRAM. *)
From Verif Require Import Base SynthModel CrcModel.

(** ** State *)
(** sram.c:35-36: [sr_present] is "sram_ops != &sram_vtable_none";
    [sr_mem] is the memory behind the read/write functions of the drivers
    (sram_ed_pro.c, sram_ed_x7.c: one byte per offset).  [sr_bus] is not a C
    object: it is the hardware state "the 68000 holds the Z80 bus".  Interrupt
    masking (SYS_disableInts) and bank switching are left out. *)
Record sram := mkSram { sr_present : bool; sr_mem : list Z; sr_taken : bool; sr_bus : bool }.
Definition sr_set_present s v := mkSram v (sr_mem s) (sr_taken s) (sr_bus s).
Definition sr_set_mem s v := mkSram (sr_present s) v (sr_taken s) (sr_bus s).
Definition sr_set_taken s v := mkSram (sr_present s) (sr_mem s) v (sr_bus s).
Definition sr_set_bus s v := mkSram (sr_present s) (sr_mem s) (sr_taken s) v.

(** ** Image of a slot, midi_fm_sram.h:7-41 *)
(** The structures are packed with big-endian storage order: bit-fields are
    laid out from the most significant bit, and cross byte boundaries. *)
Fixpoint to_bits (n : nat) (v : Z) : list bool :=
  match n with O => [] | S m => Z.testbit v (Z.of_nat m) :: to_bits m v end.
Fixpoint of_bits (acc : Z) (l : list bool) : Z :=
  match l with [] => acc | b :: t => of_bits (2 * acc + b2z b) t end.
Fixpoint to_bytes (l : list bool) : list Z :=
  match l with
  | a :: b :: c :: d :: e :: f :: g :: h :: t => of_bits 0 [a; b; c; d; e; f; g; h] :: to_bytes t
  | _ => []
  end.
Definition from_bytes (l : list Z) : list bool := flat_map (to_bits 8) l.
(** Stores of a list of (width, value) bit-fields; reads of a list of widths. *)
Definition put_fields (l : list (nat * Z)) : list bool := flat_map (fun f => to_bits (fst f) (snd f)) l.
Fixpoint get_fields (ws : list nat) (l : list bool) : list Z :=
  match ws with [] => [] | w :: t => of_bits 0 (firstn w l) :: get_fields t (skipn w l) end.

(** SramOperator, midi_fm_sram.h:7-19: 44 bits, padded to 6 bytes (the slot is
    zero-initialised, midi_fm_sram.c:26). *)
Definition OP_WIDTHS : list nat := [4; 3; 5; 2; 5; 1; 4; 5; 4; 7; 4]%nat.
Definition op_values (o : operator) : list Z :=
  [o_mul o; o_dt o; o_ar o; o_rs o; o_dr o; o_am o; o_sl o; o_sr o; o_rr o; o_tl o; o_ssg o].
Definition op_bytes (o : operator) : list Z :=
  to_bytes (put_fields (combine OP_WIDTHS (op_values o)) ++ repeat false 4).
Definition op_of_bytes (l : list Z) : operator :=
  match get_fields OP_WIDTHS (from_bytes l) with
  | [a; b; c; d; e; f; g; h; i; j; k] => mkOp a b c d e f g h i j k
  | _ => mkOp 0 0 0 0 0 0 0 0 0 0 0
  end.
(** SramFmPreset, midi_fm_sram.h:21-27: 11 bits padded to 2 bytes, then the
    operators. *)
Definition HEAD_WIDTHS : list nat := [3; 3; 2; 3]%nat.
Definition head_bytes (p : preset) : list Z :=
  to_bytes (put_fields (combine HEAD_WIDTHS [p_alg p; p_fb p; p_ams p; p_fms p]) ++ repeat false 5).
Definition preset_bytes (p : preset) : list Z := head_bytes p ++ flat_map op_bytes (p_ops p).
Definition preset_of_bytes (l : list Z) : preset :=
  let ops := map (fun i => op_of_bytes (firstn 6 (skipn (2 + 6 * i) l))) [0; 1; 2; 3]%nat in
  match get_fields HEAD_WIDTHS (from_bytes (firstn 2 l)) with
  | [a; b; c; d] => mkPreset a b c d ops
  | _ => mkPreset 0 0 0 0 ops
  end.
(** midi_fm_sram.c:100-125: magic number 0x9E1D, version 1, preset, 5 reserved
    bytes; the checksum is appended by [slot_bytes]. *)
Definition slot_body (p : preset) : list Z := [0x9E; 0x1D; 1] ++ preset_bytes p ++ [0; 0; 0; 0; 0].
(** midi_fm_sram.c:26-29 *)
Definition slot_bytes (p : preset) : list Z :=
  let crc := crc_calc_crc16 (slot_body p) in slot_body p ++ [crc / 256; crc mod 256].

(** midi_fm_sram.c:37, 58, 73: SRAM_PRESET_BASE_OFFSET 32,
    SRAM_FM_PRESET_LENGTH 36; u16. *)
Definition slot_offset (program : Z) : Z := u16 (32 + 36 * program).

(** ** sram.c *)
(** sram.c:38-48; [detected] is "an EverDrive was detected by then". *)
Definition sram_init (detected : bool) : M sram unit :=
  modify (fun s => sr_set_taken (sr_set_present s detected) false).

(** sram.c:50-55 (SGDK's Z80_getAndRequestBus returns whether the bus was
    already taken) *)
Definition sram_enable : M sram unit :=
  taken <- gets sr_bus ;;
  when (negb taken) (emit EvZ80Req) ;;
  modify (fun s => sr_set_bus s true) ;;
  modify (fun s => sr_set_taken s taken).

(** sram.c:57-65 *)
Definition sram_disable : M sram unit :=
  taken <- gets sr_taken ;;
  when taken (emit EvZ80Rel ;; modify (fun s => sr_set_bus s false) ;; modify (fun s => sr_set_taken s false)).

(** sram.c:67-75 *)
Definition sram_write (offset value : Z) : M sram unit :=
  s <- get ;;
  _ <- rd (sr_mem s) offset ;;
  emit (EvSramWrite offset value) ;;
  modify (fun s => sr_set_mem s (zset (sr_mem s) offset value)).
Definition sram_read (offset : Z) : M sram Z := s <- get ;; rd (sr_mem s) offset.

(** ** midi_fm_sram.c *)
(** midi_fm_sram.c:39-47: write each byte and read it back (a mismatch is only
    logged). *)
Fixpoint write_bytes (offset : Z) (l : list Z) : M sram unit :=
  match l with
  | [] => ret tt
  | b :: t => sram_write offset b ;; _ <- sram_read offset ;; write_bytes (u16 (offset + 1)) t
  end.

(** midi_fm_sram.c:19-49 *)
Definition sram_save_preset (program : Z) (p : preset) : M sram unit :=
  present <- gets sr_present ;;
  when present
    (sram_enable ;; write_bytes (slot_offset program) (slot_bytes p) ;; sram_disable).

(** midi_fm_sram.c:51-63 *)
Definition sram_clear_preset (program : Z) : M sram unit :=
  present <- gets sr_present ;;
  when present
    (sram_enable ;;
     sram_write (slot_offset program) 0 ;; sram_write (slot_offset program + 1) 0 ;;
     sram_disable).

(** midi_fm_sram.c:80-82 *)
Fixpoint read_bytes (offset : Z) (n : nat) : M sram (list Z) :=
  match n with
  | O => ret []
  | S m => b <- sram_read offset ;; t <- read_bytes (offset + 1) m ;; ret (b :: t)
  end.

(** midi_fm_sram.c:72-92: what one slot holds. *)
Definition load_slot (program : Z) : M sram (option preset) :=
  let offset := slot_offset program in
  hi <- sram_read offset ;;
  lo <- sram_read (offset + 1) ;;
  if negb (Z.lor (Z.shiftl hi 8) lo =? 0x9E1D) then ret None
  else
    slot <- read_bytes offset 36 ;;
    let crc := crc_calc_crc16 (firstn 34 slot) in
    let checksum := match skipn 34 slot with [a; b] => a * 256 + b | _ => 0 end in
    if negb (checksum =? crc) then ret None
    else ret (Some (preset_of_bytes (firstn 26 (skipn 3 slot)))).

Fixpoint load_slots (programs : list Z) : M sram (list (option preset)) :=
  match programs with
  | [] => ret []
  | p :: t => x <- load_slot p ;; r <- load_slots t ;; ret (x :: r)
  end.

(** midi_fm_sram.c:65-98: the presets found, program by program ([None]: the
    entry of the caller's tables is left alone).  Nothing without SRAM. *)
Definition sram_load_presets : M sram (list (option preset)) :=
  present <- gets sr_present ;;
  if negb present then ret (repeat None 128)
  else sram_enable ;; l <- load_slots (zseq 0 128) ;; sram_disable ;; ret l.

(** ** Histories *)
Inductive rop : Type := RSave (program : Z) (p : preset) | RClear (program : Z).
Definition sram_step (op : rop) : M sram unit :=
  match op with RSave n p => sram_save_preset n p | RClear n => sram_clear_preset n end.
Definition sram_run : list rop -> M sram unit := runM sram_step.
