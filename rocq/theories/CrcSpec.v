(** Bit-serial CRC-16/CCITT-FALSE: polynomial x^16+x^12+x^5+1 (0x1021), initial
    value 0xFFFF, most significant bit first, no final xor. *)
From Verif Require Import Base.

Definition crc_bit (c : Z) (b : bool) : Z :=
  let c' := (2 * c) mod 65536 in
  if xorb (Z.testbit c 15) b then Z.lxor c' 4129 else c'.

Definition byte_bits (b : Z) : list bool :=
  map (fun i => Z.testbit b i) [7; 6; 5; 4; 3; 2; 1; 0].

Definition msg_bits (data : list Z) : list bool := flat_map byte_bits data.

Definition crc_spec (data : list Z) : Z := fold_left crc_bit (msg_bits data) 65535.

(** Bitwise difference of two equal-length byte strings / bit strings. *)
Fixpoint xor_bytes (a b : list Z) : list Z :=
  match a, b with x :: a', y :: b' => Z.lxor x y :: xor_bytes a' b' | _, _ => [] end.
Fixpoint xor_bits (a b : list bool) : list bool :=
  match a, b with x :: a', y :: b' => xorb x y :: xor_bits a' b' | _, _ => [] end.

(** A non-empty error pattern whose set bits lie within 16 consecutive bits. *)
Definition burst16 (e : list bool) : Prop :=
  exists a w b, e = repeat false a ++ true :: w ++ repeat false b /\ (length w <= 15)%nat.
