(** Model of sram/crc.c *)
From Verif Require Import Base.

(** One iteration of the loop of crc_calc_crc16, sram/crc.c:11-15.
    [x] is a u8, [crc] a u16; [crc >> 8 ^ b] parses as [(crc >> 8) ^ b]. *)
Definition crc_byte (crc b : Z) : Z :=
  let x0 := u8 (Z.lxor (Z.shiftr crc 8) b) in
  let x := u8 (Z.lxor x0 (Z.shiftr x0 4)) in
  u16 (Z.lxor (Z.lxor (Z.lxor (Z.shiftl crc 8) (u16 (Z.shiftl x 12))) (u16 (Z.shiftl x 5))) x).

(** crc_calc_crc16, sram/crc.c:6-17 *)
Definition crc_calc_crc16 (data : list Z) : Z := fold_left crc_byte data 65535.
