(** C20: the checksum. *)
From Verif Require Import Base CrcModel CrcSpec CrcProofs.

Theorem C20_is_crc_ccitt_false :
  forall data : list Z, bytes data -> crc_calc_crc16 data = crc_spec data.
Proof. exact crc_is_spec. Qed.
Print Assumptions C20_is_crc_ccitt_false.

Theorem C20_fits_16_bits :
  forall data : list Z, bytes data -> 0 <= crc_calc_crc16 data < 65536.
Proof. exact crc_range. Qed.
Print Assumptions C20_fits_16_bits.

(** The difference of two checksums depends only on the bitwise difference. *)
Theorem C20_difference_linear :
  forall a b : list Z, bytes a -> bytes b -> length a = length b ->
    Z.lxor (crc_calc_crc16 a) (crc_calc_crc16 b) = fold_left crc_byte (xor_bytes a b) 0.
Proof. exact crc_difference. Qed.
Print Assumptions C20_difference_linear.

(** A record followed by its big-endian checksum has residue zero, and no
    other two bytes do. *)
Theorem C20_residue :
  forall (data : list Z) (hi lo : Z), bytes data -> 0 <= hi < 256 -> 0 <= lo < 256 ->
    (crc_calc_crc16 (data ++ [hi; lo]) = 0 <-> hi * 256 + lo = crc_calc_crc16 data).
Proof. exact crc_check_iff. Qed.
Print Assumptions C20_residue.

(** Every error burst of at most 16 bits changes the remainder. *)
Theorem C20_detects_bursts :
  forall e : list bool, burst16 e -> fold_left crc_bit e 0 <> 0.
Proof. exact burst_nonzero. Qed.
Print Assumptions C20_detects_bursts.

(** The check value of CRC-16/CCITT-FALSE ("123456789" gives 0x29B1). *)
Example C20_check_value : crc_calc_crc16 [49; 50; 51; 52; 53; 54; 55; 56; 57] = 10673.
Proof. reflexivity. Qed.
Example C20_burst_nonvacuous : burst16 [false; false; true; false; true; true; false].
Proof. exists 2%nat, [false; true; true], 1%nat. split; [reflexivity|cbn; lia]. Qed.
