(** C54: text form of IP addresses. *)
From Verif Require Import Base IpUtilModel IpUtilSpec IpUtilProofs.

(** The text is four fields separated by dots, of 7 to 15 characters. *)
Theorem C54_dotted_shape :
  forall ip, 0 <= ip < 2 ^ 32 ->
    uint32_to_ip_str ip
    = uint8_to_str (ip_byte ip 0) ++ [46] ++ uint8_to_str (ip_byte ip 1) ++ [46]
      ++ uint8_to_str (ip_byte ip 2) ++ [46] ++ uint8_to_str (ip_byte ip 3).
Proof. exact ip_str_shape. Qed.
Print Assumptions C54_dotted_shape.

Theorem C54_length : forall ip, 0 <= ip < 2 ^ 32 -> (7 <= length (uint32_to_ip_str ip) <= 15)%nat.
Proof. exact ip_str_len. Qed.
Print Assumptions C54_length.

(** A field is the decimal numeral of its byte exactly when the byte is not in
    100..109 or 200..209. Missing for the full property: those 20 values. *)
Theorem C54_field_decimal_partial :
  forall n, 0 <= n < 256 -> (decimal (uint8_to_str n) n <-> bad_byte n = false).
Proof. exact uint8_decimal_iff. Qed.
Print Assumptions C54_field_decimal_partial.

(** 192.168.1.105 is shown as 192.168.1.15. *)
Theorem C54_field_decimal_refuted :
  exists ip, 0 <= ip < 2 ^ 32 /\
    uint32_to_ip_str ip = [49; 57; 50; 46; 49; 54; 56; 46; 49; 46; 49; 53] /\
    ip_byte ip 3 = 105 /\ ~ decimal (uint8_to_str (ip_byte ip 3)) (ip_byte ip 3).
Proof. exact ip_105_wrong. Qed.
Print Assumptions C54_field_decimal_refuted.

Example C54_nonvacuous : decimal (uint8_to_str 192) 192 /\ decimal (uint8_to_str 0) 0.
Proof. split; apply uint8_decimal_iff; try lia; reflexivity. Qed.
