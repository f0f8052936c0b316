(** The AppleMIDI session protocol, as far as the interface takes part. *)
From Verif Require Import Base RtpModel AppleModel RtpSpec NetSpec.

Definition bytes32 (x : Z) : list Z := [x / 2 ^ 24 mod 256; x / 2 ^ 16 mod 256; x / 2 ^ 8 mod 256; x mod 256].
Definition word32 (l : list Z) : Z := fold_left (fun n b => n * 256 + b) l 0.
(** Bytes [i] to [i + n - 1] of a packet. *)
Definition field (i n : nat) (d : list Z) : list Z := firstn n (skipn i d).

Definition own_ssrc : list Z := [0x9E; 0x91; 0x51; 0x50].
Definition is_signed (d : list Z) : Prop := field 0 2 d = [0xFF; 0xFF].
Definition IN : list Z := [73; 78].
Definition CK : list Z := [67; 75].
Definition RS : list Z := [82; 83].
Definition BY : list Z := [66; 89].

(** Acceptance of an invitation with the given token: version 2, "MegaDrive". *)
Definition acceptance (token : list Z) : list Z :=
  [0xFF; 0xFF; 79; 75] ++ [0; 0; 0; 2] ++ token ++ own_ssrc ++ [77; 101; 103; 97; 68; 114; 105; 118; 101] ++ repeat 0 7.
(** Answer to a clock synchronisation. *)
Definition sync_answer (d : list Z) : list Z :=
  [0xFF; 0xFF; 67; 75] ++ own_ssrc ++ [1] ++ field 9 3 d ++ field 12 8 d
  ++ field 12 4 d ++ bytes32 ((word32 (field 16 4 d) + 10) mod 2 ^ 32) ++ field 28 8 d.

Definition eqb_list (a b : list Z) : bool := if list_eq_dec Z.eq_dec a b then true else false.

(** The reply owed for a packet that came in on a port. *)
Definition reply (ch : Z) (d : list Z) : option (list Z) :=
  if eqb_list (field 0 2 d) [0xFF; 0xFF] then
    if eqb_list (field 2 2 d) IN && (17 <=? Z.of_nat (length d)) then Some (acceptance (field 8 4 d))
    else if (ch =? 2) && eqb_list (field 2 2 d) CK && (36 <=? Z.of_nat (length d)) && eqb_list (field 8 1 d) [0] then Some (sync_answer d)
    else None
  else None.

(** The result reported. *)
Definition verdict (ch : Z) (d : list Z) : pkt_result :=
  if eqb_list (field 0 2 d) [0xFF; 0xFF] then
    if eqb_list (field 2 2 d) IN then if 17 <=? Z.of_nat (length d) then PKT_OK else PKT_EXCH_TOO_SMALL
    else if (ch =? 2) && eqb_list (field 2 2 d) CK then if 36 <=? Z.of_nat (length d) then PKT_OK else PKT_INVALID_TIMESYNC_LENGTH
    else if (ch =? 1) && (eqb_list (field 2 2 d) RS || eqb_list (field 2 2 d) BY) then PKT_OK
    else PKT_UNSUPPORTED_COMMAND
  else PKT_INVALID_SIGNATURE.
Definition ends_session (ch : Z) (d : list Z) : bool := (ch =? 1) && eqb_list (field 0 4 d) ([0xFF; 0xFF] ++ BY).
