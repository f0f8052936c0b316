(** Model of comm/rtpmidi.c.
    A [u8*] into a buffer is the list of the bytes from there to the end of the
    array it points into; reading through it when nothing is left is an
    out-of-bounds access. The bytes handed to comm_megawifi_midiEmitCallback are
    returned as a list, in order: the parser never looks at what the callback
    does. Log output is left out. *)
From Verif Require Import Base.

(** midi_pkt_result, comm/applemidi.h:5-13 *)
Inductive pkt_result :=
| PKT_OK | PKT_INVALID_SIGNATURE | PKT_EXCH_TOO_SMALL | PKT_INVALID_TIMESYNC_LENGTH
| PKT_RTP_HEADER_TOO_SHORT | PKT_RTP_LENGTH_MISMATCH | PKT_UNSUPPORTED_COMMAND.

(** comm/rtpmidi.c:7-9, comm/applemidi.h:20, 27 *)
Definition SYSEX_START : Z := 0xF0.
Definition SYSEX_END : Z := 0xF7.
Definition RESET : Z := 0xFF.
Definition RTP_HEADER_LEN : Z := 12.
Definition MEGADRIVE_SSRC : Z := 0x9E915150.

(** Emitted bytes, or a fault. *)
Inductive emitted := Emitted (o : list Z) | EFault (f : fault).
Definition after (o : list Z) (e : emitted) : emitted :=
  match e with Emitted o' => Emitted (o ++ o') | EFault f => EFault f end.

(** is_long_header, comm/rtpmidi.c:25-28 *)
Definition is_long_header (c0 : Z) : bool := negb (c0 / 128 =? 0).
(** four_bit_midi_length, comm/rtpmidi.c:30-33 *)
Definition four_bit_midi_length (c0 : Z) : Z := c0 mod 16.
(** twelve_bit_midi_length, comm/rtpmidi.c:35-38 *)
Definition twelve_bit_midi_length (c0 c1 : Z) : Z := u16 (c0 * 4096 + c1).

(** bytes_to_emit, comm/rtpmidi.c:40-48 *)
Definition bytes_to_emit (status : Z) : Z :=
  if (status / 16 =? 0xC) || (status / 16 =? 0xD) || (status =? 0xF1) || (status =? 0xF3) then 1 else 2.

(** emit_midi_event, comm/rtpmidi.c:50-60: the bytes emitted and the cursor left
    on the last byte read. *)
Definition emit_midi_event (status : Z) (cursor : list Z) : option (list Z * list Z) :=
  match cursor with
  | [] => None
  | d :: rest =>
      if bytes_to_emit status =? 1 then Some ([status; d], cursor)
      else match rest with [] => None | d2 :: _ => Some ([status; d; d2], rest) end
  end.

(** The repeated part of the loops in process_sysex and process_middle_sysex
    (comm/rtpmidi.c:64-67, 75-77), from a cursor just moved on: the bytes walked
    over and the cursor left on the byte that ended the loop. *)
Fixpoint until_end (cursor : list Z) : option (list Z * list Z) :=
  match cursor with
  | [] => None
  | b :: rest =>
      if (b =? SYSEX_END) || (b =? SYSEX_START) then Some ([], cursor)
      else match until_end rest with Some (o, c) => Some (b :: o, c) | None => None end
  end.

(** process_sysex, comm/rtpmidi.c:62-69 *)
Definition process_sysex (cursor : list Z) : option (list Z * list Z) :=
  match cursor with
  | [] => None
  | b :: rest => match until_end rest with Some (o, c) => Some (b :: o ++ [SYSEX_END], c) | None => None end
  end.

(** process_middle_sysex, comm/rtpmidi.c:71-78 *)
Definition process_middle_sysex (cursor : list Z) : option (list Z) :=
  match cursor with
  | [] => None
  | _ :: rest => match until_end rest with Some (_, c) => Some c | None => None end
  end.

(** sequence_number, comm/rtpmidi.c:80-83 *)
Definition sequence_number (b2 b3 : Z) : Z := b2 * 256 + b3.

(** The loop of rtpmidi_processRtpMidiPacket, comm/rtpmidi.c:117-137. [tail] is
    the number of bytes of the array behind [midiEnd], so [cursor <= midiEnd] says
    that more than [tail] bytes are left from the cursor on. [fuel] only bounds the
    recursion: every round moves the cursor. *)
Fixpoint walk (fuel : nat) (tail : Z) (deltas : bool) (status : Z) (cursor : list Z) : emitted :=
  match fuel with
  | O => EFault F_hang
  | S fuel =>
      if Z.of_nat (length cursor) <=? tail then Emitted []
      else match cursor with
      | [] => EFault F_oob
      | b :: rest =>
          if deltas && (b <? 128) then walk fuel tail false status rest
          else if b =? SYSEX_START then
            match process_sysex cursor with
            | Some (o, c) => after o (walk fuel tail true status (tl c))
            | None => EFault F_oob
            end
          else if b =? SYSEX_END then
            match process_middle_sysex cursor with
            | Some c => walk fuel tail true status (tl c)
            | None => EFault F_oob
            end
          else if b =? RESET then after [b] (walk fuel tail true status rest)
          else if 128 <=? b then walk fuel tail deltas b rest
          else
            match emit_midi_event status cursor with
            | Some (o, c) => after o (walk fuel tail true status (tl c))
            | None => EFault F_oob
            end
      end
  end.

(** Result code, emitted bytes and the sequence number passed to
    applemidi_updateLastSeqNum, or a fault. *)
Inductive parsed := Parsed (code : pkt_result) (o : list Z) (seq : option Z) | PFault (f : fault).

(** rtpmidi_processRtpMidiPacket, comm/rtpmidi.c:90-141. [buffer]: the array from
    the packet's first byte on. *)
Definition process_rtp_midi_packet (buffer : list Z) (len : Z) : parsed :=
  if len <? RTP_HEADER_LEN + 1 then Parsed PKT_RTP_HEADER_TOO_SHORT [] None
  else
    match zget buffer 2, zget buffer 3, zget buffer 12 with
    | Some b2, Some b3, Some c0 =>
        let seqNum := sequence_number b2 b3 in
        let longHeader := is_long_header c0 in
        let midiLength := if longHeader then match zget buffer 13 with
                                             | Some c1 => Some (twelve_bit_midi_length c0 c1)
                                             | None => None end
                          else Some (four_bit_midi_length c0) in
        match midiLength with
        | None => PFault F_oob
        | Some midiLength =>
            let headerLen := RTP_HEADER_LEN + (if longHeader then 2 else 1) in
            if len <? headerLen + midiLength then Parsed PKT_RTP_LENGTH_MISMATCH [] None
            else
              let midiStart := skipn (Z.to_nat headerLen) buffer in
              match walk (S (length midiStart)) (Z.of_nat (length buffer) - (headerLen + midiLength)) false 0 midiStart with
              | Emitted o => Parsed PKT_OK o (Some seqNum)
              | EFault f => PFault f
              end
        end
    | _, _, _ => PFault F_oob
    end.

(** rtpmidi_packRtpMidiPacket, comm/rtpmidi.c:143-215, for a non-NULL [midiData]
    of the given bytes. [None]: returned 0; otherwise the packet written and the
    next [sendSeqNum]. The twelve header bytes written before the size check are
    not visible when 0 is returned (the caller's buffer is then discarded). *)
Definition pack_rtp_midi_packet (sendSeqNum timestampLo : Z) (midiData : list Z) (bufferLength : Z) : option (list Z * Z) :=
  let midiDataLength := Z.of_nat (length midiData) in
  if 0x0FFF <? midiDataLength then None
  else
    let useLongHeader := 0x0F <? midiDataLength in
    let commandHeaderLength := if useLongHeader then 2 else 1 in
    let packedLength := u16 (RTP_HEADER_LEN + commandHeaderLength + midiDataLength) in
    if bufferLength <? packedLength then None
    else
      Some ([0x80; 0x61; u8 (sendSeqNum / 256); u8 sendSeqNum;
             u8 (timestampLo / 2 ^ 24); u8 (timestampLo / 2 ^ 16); u8 (timestampLo / 2 ^ 8); u8 timestampLo;
             u8 (MEGADRIVE_SSRC / 2 ^ 24); u8 (MEGADRIVE_SSRC / 2 ^ 16); u8 (MEGADRIVE_SSRC / 2 ^ 8); u8 MEGADRIVE_SSRC]
            ++ (if useLongHeader then [Z.lor 0x80 (u8 (midiDataLength / 256)); u8 midiDataLength] else [midiDataLength mod 16])
            ++ midiData,
            u16 (sendSeqNum + 1)).
