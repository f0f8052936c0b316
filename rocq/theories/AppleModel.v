(** Model of comm/applemidi.c. Buffers as in RtpModel: [buffer] is the array from
    the packet's first byte on, [length] what the transport reported. The static
    send buffers are filled anew before each use and are not part of the state.
    Calls to comm_megawifi_send are returned as a list of (channel, bytes). Log
    output is left out. *)
From Verif Require Import Base RtpModel.

(** Statics of comm/applemidi.c:8, 15-16 *)
Record apple := mkApple { ap_seq : Z; ap_hi : Z; ap_lo : Z }.
Definition apple_init : apple := mkApple 0 0 0.

(** comm/applemidi.h:21-32, 34 *)
Definition CH_CONTROL_PORT : Z := 1.
Definition CH_MIDI_PORT : Z := 2.
Definition EXCHANGE_PACKET_LEN : Z := 32.
Definition APPLE_MIDI_EXCH_PKT_MIN_LEN : Z := 17.
Definition TIMESYNC_PKT_LEN : Z := 36.

(** Result code, whether the event SESSION_END was stored, the sends, the statics. *)
Inductive ares := ADone (code : pkt_result) (ended : bool) (sends : list (Z * list Z)) (s : apple) | AFault (f : fault).

(** Big-endian 32-bit fields of the packed unions, comm/applemidi.h:36-67 *)
Definition be32 (b3 b2 b1 b0 : Z) : Z := b3 * 2 ^ 24 + b2 * 2 ^ 16 + b1 * 2 ^ 8 + b0.
Definition to_be32 (x : Z) : list Z := [u8 (x / 2 ^ 24); u8 (x / 2 ^ 16); u8 (x / 2 ^ 8); u8 x].

(** The copy loops of comm/applemidi.c:45-49 and 85-89: the first [n] bytes. *)
Definition copy_in (n : Z) (buffer : list Z) : option (list Z) :=
  if Z.of_nat (length buffer) <? n then None else Some (firstn (Z.to_nat n) buffer).

(** signature != APPLE_MIDI_SIGNATURE, comm/applemidi.c:50, 90 *)
Definition signed (p : list Z) : bool :=
  match p with s1 :: s0 :: _ => s1 * 256 + s0 =? 0xFFFF | _ => false end.

(** pack_invitation_response, comm/applemidi.c:57-70; [token]: the four bytes of
    initToken. *)
Definition pack_invitation_response (token : list Z) : list Z :=
  [0xFF; 0xFF; 79; 75] ++ to_be32 2 ++ token ++ to_be32 MEGADRIVE_SSRC
  ++ [77; 101; 103; 97; 68; 114; 105; 118; 101; 0; 0; 0; 0; 0; 0; 0].

(** process_invitation, unpack_invitation, send_invite_response,
    comm/applemidi.c:24-55, 72-77 *)
Definition process_invitation (ch : Z) (buffer : list Z) (len : Z) (s : apple) : ares :=
  if len <? APPLE_MIDI_EXCH_PKT_MIN_LEN then ADone PKT_EXCH_TOO_SMALL false [] s
  else match copy_in EXCHANGE_PACKET_LEN buffer with
  | None => AFault F_oob
  | Some p =>
      if negb (signed p) then ADone PKT_INVALID_SIGNATURE false [] s
      else ADone PKT_OK false [(ch, pack_invitation_response (firstn 4 (skipn 8 p)))] s
  end.

(** process_timestamp_sync, unpack_timestamp_sync, send_timestamp_sync,
    comm/applemidi.c:79-133 *)
Definition process_timestamp_sync (buffer : list Z) (len : Z) (s : apple) : ares :=
  if len <? TIMESYNC_PKT_LEN then ADone PKT_INVALID_TIMESYNC_LENGTH false [] s
  else match copy_in TIMESYNC_PKT_LEN buffer with
  | None => AFault F_oob
  | Some p =>
      if negb (signed p) then ADone PKT_INVALID_SIGNATURE false [] s
      else match p with
      | [s1; s0; k1; k0; _; _; _; _; count; p2; p1; p0;
         h3; h2; h1; h0; l3; l2; l1; l0; _; _; _; _; _; _; _; _;
         x3; x2; x1; x0; y3; y2; y1; y0] =>
          if count =? 0 then
            let hi := be32 h3 h2 h1 h0 in
            let lo := u32 (be32 l3 l2 l1 l0 + 10) in
            ADone PKT_OK false
              [(CH_MIDI_PORT, [s1; s0; k1; k0] ++ to_be32 MEGADRIVE_SSRC ++ [1; p2; p1; p0]
                              ++ [h3; h2; h1; h0; l3; l2; l1; l0] ++ to_be32 hi ++ to_be32 lo
                              ++ [x3; x2; x1; x0; y3; y2; y1; y0])]
              (mkApple (ap_seq s) hi lo)
          else ADone PKT_OK false [] s
      | _ => AFault F_oob     (* not reached: [p] has 36 bytes *)
      end
  end.

(** has_apple_midi_signature, comm/applemidi.c:135-141 (and the copy in
    comm/comm_megawifi.c:86-92). The reads are within every buffer used. *)
Definition has_apple_midi_signature (buffer : list Z) (len : Z) : option bool :=
  if len <? 2 then Some false
  else match buffer with b0 :: b1 :: _ => Some ((b0 =? 0xFF) && (b1 =? 0xFF)) | _ => None end.

(** applemidi_processSessionControlPacket, comm/applemidi.c:163-187, with a
    non-NULL [event]. 'I' 'N' = 73 78, 'R' 'S' = 82 83, 'B' 'Y' = 66 89. *)
Definition process_session_control_packet (buffer : list Z) (len : Z) (s : apple) : ares :=
  match has_apple_midi_signature buffer len with
  | None => AFault F_oob
  | Some false => ADone PKT_INVALID_SIGNATURE false [] s
  | Some true =>
      match zget buffer 2, zget buffer 3 with
      | Some c0, Some c1 =>
          if (c0 =? 73) && (c1 =? 78) then process_invitation CH_CONTROL_PORT buffer len s
          else if (c0 =? 82) && (c1 =? 83) then ADone PKT_OK false [] s
          else if (c0 =? 66) && (c1 =? 89) then ADone PKT_OK true [] s
          else ADone PKT_UNSUPPORTED_COMMAND false [] s
      | _, _ => AFault F_oob
      end
  end.

(** applemidi_processSessionMidiPacket, comm/applemidi.c:189-203. 'C' 'K' = 67 75. *)
Definition process_session_midi_packet (buffer : list Z) (len : Z) (s : apple) : ares :=
  match has_apple_midi_signature buffer len with
  | None => AFault F_oob
  | Some false => ADone PKT_INVALID_SIGNATURE false [] s
  | Some true =>
      match zget buffer 2, zget buffer 3 with
      | Some c0, Some c1 =>
          if (c0 =? 73) && (c1 =? 78) then process_invitation CH_MIDI_PORT buffer len s
          else if (c0 =? 67) && (c1 =? 75) then process_timestamp_sync buffer len s
          else ADone PKT_UNSUPPORTED_COMMAND false [] s
      | _, _ => AFault F_oob
      end
  end.

(** applemidi_updateLastSeqNum, comm/applemidi.c:210-213 *)
Definition update_last_seq_num (seq : Z) (s : apple) : apple := mkApple seq (ap_hi s) (ap_lo s).

(** applemidi_sendReceiverFeedback, comm/applemidi.c:215-223: the packet sent. *)
Definition receiver_feedback (s : apple) : list Z :=
  [0xFF; 0xFF; 82; 83; u8 (MEGADRIVE_SSRC / 2 ^ 24); u8 (MEGADRIVE_SSRC / 2 ^ 16); u8 (MEGADRIVE_SSRC / 2 ^ 8);
   u8 MEGADRIVE_SSRC; u8 (ap_seq s / 256); u8 (ap_seq s); 0; 0].
