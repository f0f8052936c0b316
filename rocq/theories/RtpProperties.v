(** Properties C55, C56, C57: decoding and building RTP-MIDI packets. *)
From Verif Require Import Base RtpModel RtpSpec RtpProofs RtpExampleProofs.

(** ** C55 *)
(** For every well-formed packet whose Z flag is clear, whose command list is
    shorter than 256 bytes, whose delta times hold none of the bytes 0xF0, 0xF7,
    0xFF, with a status byte behind every delta time of several bytes, and without
    data-less commands other than System Reset, the bytes handed on are exactly
    the MIDI commands, running status expanded, delta times removed — whatever
    journal follows and whatever is left in memory behind the packet.
    Missing from the full claim: the other well-formed packets, refuted below. *)
Theorem C55_decoding_partial : forall hdr sec journal left, packet_ok hdr sec journal -> handled sec ->
  process_rtp_midi_packet (rtp_packet hdr sec journal ++ left) (Z.of_nat (length (rtp_packet hdr sec journal))) =
  Parsed PKT_OK (stream sec) (Some (seq_of hdr)).
Proof. exact decodes. Qed.
Print Assumptions C55_decoding_partial.
Example C55_decoding_nonvacuous : packet_ok hdr0 mixed [7; 7] /\ handled mixed /\
  stream mixed = [0xF0; 0; 0x22; 0x77; 1; 0xF7; 0x93; 60; 100; 0x93; 64; 90; 0xFF; 0x93; 67; 80; 0xC2; 5] /\ seq_of hdr0 = 0x1234.
Proof. exact mixed_ok. Qed.

(** A delta time before the first command (Z flag) makes the parser read past the
    packet; a delta time holding 0xFF is handed on as a System Reset; a delta time
    of two bytes changes the running status; a timing clock garbles what follows. *)
Theorem C55_refuted :
  (packet_ok hdr0 zflag [] /\ stream zflag = [0x90; 60; 100] /\ parse hdr0 zflag [] = PFault F_oob) /\
  (packet_ok hdr0 reset_delta [] /\ stream reset_delta = [0x90; 60; 100; 0x80; 60; 100] /\
    parse hdr0 reset_delta [] = Parsed PKT_OK [0x90; 60; 100; 0xFF; 0x80; 60; 100] (Some 0x1234)) /\
  (packet_ok hdr0 long_delta [] /\ stream long_delta = [0x90; 60; 100; 0x90; 60; 0] /\
    parse hdr0 long_delta [] = Parsed PKT_OK [0x90; 60; 100; 0x81; 60; 0] (Some 0x1234)) /\
  (packet_ok hdr0 clock [] /\ stream clock = [0xF8; 0x90; 60; 100] /\ parse hdr0 clock [] = PFault F_oob).
Proof. exact c55_refuted. Qed.
Print Assumptions C55_refuted.

(** ** C56 *)
(** Every complete MIDI message of at most 255 bytes, other than the data-less ones
    refuted below, comes back unchanged with its sequence number. *)
Theorem C56_round_trip_partial : forall seq ts c, 0 <= seq < 65536 -> command_ok c -> carried c -> Z.of_nat (length (midi_bytes c)) <= 255 ->
  exists pkt, pack_rtp_midi_packet seq ts (midi_bytes c) (256 + Z.of_nat (length (midi_bytes c))) = Some (pkt, u16 (seq + 1)) /\
    process_rtp_midi_packet pkt (Z.of_nat (length pkt)) = Parsed PKT_OK (midi_bytes c) (Some seq).
Proof. exact round_trip. Qed.
Print Assumptions C56_round_trip_partial.
Example C56_round_trip_nonvacuous : command_ok (Sysex [0; 0x22; 0x77; 2]) /\ carried (Sysex [0; 0x22; 0x77; 2]) /\
  Z.of_nat (length (midi_bytes (Sysex [0; 0x22; 0x77; 2]))) <= 255.
Proof. exact pong_ok. Qed.

(** Every message of 256 to 4095 bytes is packed and then rejected by the parser. *)
Theorem C56_refuted_long : forall seq ts m, Forall byte m -> 256 <= Z.of_nat (length m) <= 4095 ->
  exists pkt, pack_rtp_midi_packet seq ts m (256 + Z.of_nat (length m)) = Some (pkt, u16 (seq + 1)) /\
    process_rtp_midi_packet pkt (Z.of_nat (length pkt)) = Parsed PKT_RTP_LENGTH_MISMATCH [] None.
Proof. exact long_rejected. Qed.
Print Assumptions C56_refuted_long.
Example C56_refuted_long_nonvacuous : command_ok big_sysex /\ Z.of_nat (length (midi_bytes big_sysex)) = 256.
Proof. exact big_sysex_ok. Qed.

(** Every data-less command other than System Reset is lost. *)
Theorem C56_refuted_realtime : forall seq ts st, 0 <= seq < 65536 -> status_ok st -> st <> 0xFF -> data_count st = 0%nat ->
  exists pkt, pack_rtp_midi_packet seq ts [st] (256 + 1) = Some (pkt, u16 (seq + 1)) /\
    process_rtp_midi_packet pkt (Z.of_nat (length pkt)) = Parsed PKT_OK [] (Some seq).
Proof. exact realtime_lost. Qed.
Print Assumptions C56_refuted_realtime.
Example C56_refuted_realtime_nonvacuous : status_ok 0xF8 /\ data_count 0xF8 = 0%nat.
Proof. exact clock_status_ok. Qed.

(** ** C57 *)
(** Whatever a peer sends, parsing ends. *)
Theorem C57_ends : forall buffer len, process_rtp_midi_packet buffer len <> PFault F_hang.
Proof. exact parse_ends. Qed.
Print Assumptions C57_ends.

(** Whatever a peer sends, as long as no byte behind the RTP header is 0xF0 or
    0xF7, at most one byte behind the packet is read. Missing from the full claim:
    that byte, and packets with those bytes; both refuted below. (Packets within
    C55 never cause a read behind the packet: take [left = []] there.) *)
Theorem C57_overrun_partial : forall pkt x, Forall byte pkt -> Forall plain (skipn 12 pkt) ->
  exists code o seq, process_rtp_midi_packet (pkt ++ [x]) (Z.of_nat (length pkt)) = Parsed code o seq.
Proof. exact plain_overrun. Qed.
Print Assumptions C57_overrun_partial.
Example C57_overrun_nonvacuous : Forall byte cut_note /\ Forall plain (skipn 12 cut_note) /\
  process_rtp_midi_packet (cut_note ++ [99]) (Z.of_nat (length cut_note)) = Parsed PKT_OK [0x90; 60; 99] (Some 1).
Proof. exact cut_note_read. Qed.

(** A Note On cut short reads the byte behind the packet; an unfinished SysEx is
    followed through any amount of memory. *)
Theorem C57_refuted :
  process_rtp_midi_packet cut_note (Z.of_nat (length cut_note)) = PFault F_oob /\
  forall more, Forall plain more -> process_rtp_midi_packet (open_sysex ++ more) (Z.of_nat (length open_sysex)) = PFault F_oob.
Proof. exact c57_refuted. Qed.
Print Assumptions C57_refuted.
