(** Model of comm/ip_util.c. Characters are ASCII codes. *)
From Verif Require Import Base.

(** uint8_to_str, comm/ip_util.c:3-27: the characters written before the
    terminating NUL (the return value is their number). *)
Definition uint8_to_str (num : Z) : list Z :=
  let '(d100, num1) :=
    if 199 <? num then ([50], u8 (num - 200))
    else if 99 <? num then ([49], u8 (num - 100))
    else ([], num) in
  let tmp := num1 / 10 in
  d100 ++ (if tmp =? 0 then [] else [48 + tmp]) ++ [48 + num1 mod 10].

(** uint32_to_ip_str, comm/ip_util.c:30-44. [b0..b3] are the bytes of [ip_u32]
    in memory order (big-endian on the 68000, so b0 is the most significant).
    The NUL written by each uint8_to_str call is overwritten by the '.' or is
    the final terminator. *)
Definition uint32_to_ip_str (ip : Z) : list Z :=
  let b0 := ip / 16777216 mod 256 in
  let b1 := ip / 65536 mod 256 in
  let b2 := ip / 256 mod 256 in
  let b3 := ip mod 256 in
  uint8_to_str b0 ++ [46] ++ uint8_to_str b1 ++ [46] ++ uint8_to_str b2 ++ [46] ++ uint8_to_str b3.
