(** Witnesses for the RTP-MIDI statements. *)
From Verif Require Import Base BaseLemmas RtpModel RtpSpec RtpProofs.

Definition hdr0 : list Z := [0x80; 0x61; 0x12; 0x34; 0; 0; 0; 0; 1; 2; 3; 4].
Definition parse (hdr : list Z) (sec : section) (journal : list Z) : parsed :=
  process_rtp_midi_packet (rtp_packet hdr sec journal) (Z.of_nat (length (rtp_packet hdr sec journal))).

Ltac bytes := repeat (apply Forall_cons; [unfold byte, data_byte; lia|]); apply Forall_nil.
Ltac delta := first [exists [], 0; repeat split; [cbn; lia|apply Forall_nil|unfold data_byte; lia..]
                    |eexists [_], 0; repeat split; [cbn; lia|apply Forall_cons; [lia|apply Forall_nil]|unfold data_byte; lia..]].
Ltac cmd := cbn [command_ok it_cmd]; repeat split; try reflexivity; try (unfold status_ok; lia); bytes.
Ltac omitted := let E := fresh in intros E; first [discriminate E|eexists _, _; split; reflexivity].

Ltac handled_item :=
  split; [repeat (apply Forall_cons; [lia|]); apply Forall_nil|];
  split; [cbn [it_delta length it_omit it_cmd is_reset]; intros; first [exfalso; lia|split; [reflexivity|lia]]|];
  cbn [carried it_cmd]; first [exact Logic.I|left; reflexivity|right; cbv; discriminate].

(** A packet with a SysEx, a two-byte delta, running status, a System Reset and a
    trailing delta. *)
Definition mixed : section := Section_of true true false false
  [Item [] false (Sysex [0; 0x22; 0x77; 1]); Item [0x81; 0] false (Cmd 0x93 [60; 100]); Item [0] true (Cmd 0x93 [64; 90]);
   Item [0] false (Cmd 0xFF []); Item [0] true (Cmd 0x93 [67; 80]); Item [0] false (Cmd 0xC2 [5])] [0].
Lemma mixed_ok : packet_ok hdr0 mixed [7; 7] /\ handled mixed /\
  stream mixed = [0xF0; 0; 0x22; 0x77; 1; 0xF7; 0x93; 60; 100; 0x93; 64; 90; 0xFF; 0x93; 67; 80; 0xC2; 5] /\ seq_of hdr0 = 0x1234.
Proof.
  split; [|split; [|split; reflexivity]].
  - split; [reflexivity|]. split; [bytes|]. split; [|split; [bytes|reflexivity]]. split; [cbv; congruence|].
    cbn [sec_items mixed sec_z it_delta it_cmd rest_ok].
    repeat match goal with |- _ /\ _ => split end; try reflexivity; try delta; try cmd; try omitted; try exact Logic.I.
    right. delta.
  - split; [reflexivity|]. split; [cbv; congruence|]. split.
    + repeat (apply Forall_cons; [handled_item|]); apply Forall_nil.
    + repeat (apply Forall_cons; [lia|]); apply Forall_nil.
Qed.

(** ** Well-formed packets decoded wrongly *)
Definition zflag : section := Section_of false false true false [Item [0] false (Cmd 0x90 [60; 100])] [].
Definition reset_delta : section := Section_of false false false false [Item [] false (Cmd 0x90 [60; 100]); Item [0xFF; 0] false (Cmd 0x80 [60; 100])] [].
Definition long_delta : section := Section_of false false false false [Item [] false (Cmd 0x90 [60; 100]); Item [0x81; 0] true (Cmd 0x90 [60; 0])] [].
Definition clock : section := Section_of false false false false [Item [] false (Cmd 0xF8 []); Item [0] false (Cmd 0x90 [60; 100])] [].

Ltac small_ok :=
  split; [reflexivity|]; split; [bytes|]; split; [|split; [apply Forall_nil|reflexivity]]; split; [cbv; congruence|];
  cbn [sec_items sec_z it_delta it_cmd rest_ok zflag reset_delta long_delta clock];
  repeat match goal with |- _ /\ _ => split end; try reflexivity; try delta; try cmd; try omitted; try exact Logic.I; left; reflexivity.

Lemma zflag_ok : packet_ok hdr0 zflag []. Proof. small_ok. Qed.
Lemma reset_delta_ok : packet_ok hdr0 reset_delta []. Proof. small_ok. Qed.
Lemma long_delta_ok : packet_ok hdr0 long_delta []. Proof. small_ok. Qed.
Lemma clock_ok : packet_ok hdr0 clock []. Proof. small_ok. Qed.

Theorem c55_refuted :
  (packet_ok hdr0 zflag [] /\ stream zflag = [0x90; 60; 100] /\ parse hdr0 zflag [] = PFault F_oob) /\
  (packet_ok hdr0 reset_delta [] /\ stream reset_delta = [0x90; 60; 100; 0x80; 60; 100] /\
    parse hdr0 reset_delta [] = Parsed PKT_OK [0x90; 60; 100; 0xFF; 0x80; 60; 100] (Some 0x1234)) /\
  (packet_ok hdr0 long_delta [] /\ stream long_delta = [0x90; 60; 100; 0x90; 60; 0] /\
    parse hdr0 long_delta [] = Parsed PKT_OK [0x90; 60; 100; 0x81; 60; 0] (Some 0x1234)) /\
  (packet_ok hdr0 clock [] /\ stream clock = [0xF8; 0x90; 60; 100] /\ parse hdr0 clock [] = PFault F_oob).
Proof.
  split; [split; [exact zflag_ok|split; reflexivity]|]. split; [split; [exact reset_delta_ok|split; reflexivity]|].
  split; [split; [exact long_delta_ok|split; reflexivity]|]. split; [exact clock_ok|split; reflexivity].
Qed.

(** A SysEx of 256 bytes. *)
Definition big_sysex : command := Sysex (repeat 1 254).
Lemma big_sysex_ok : command_ok big_sysex /\ Z.of_nat (length (midi_bytes big_sysex)) = 256.
Proof. split; [apply Forall_forall; intros x H; apply repeat_spec in H; subst; unfold data_byte; lia|reflexivity]. Qed.
Lemma pong_ok : command_ok (Sysex [0; 0x22; 0x77; 2]) /\ carried (Sysex [0; 0x22; 0x77; 2]) /\
  Z.of_nat (length (midi_bytes (Sysex [0; 0x22; 0x77; 2]))) <= 255.
Proof. repeat split; [bytes|cbn; lia]. Qed.
Lemma clock_status_ok : status_ok 0xF8 /\ data_count 0xF8 = 0%nat.
Proof. split; [unfold status_ok; lia|reflexivity]. Qed.

(** A Note On without its velocity. *)
Definition cut_note : list Z := [0x80; 0x61; 0; 1; 0; 0; 0; 0; 0; 0; 0; 0; 2; 0x90; 60].
Lemma cut_note_read : Forall byte cut_note /\ Forall plain (skipn 12 cut_note) /\
  process_rtp_midi_packet (cut_note ++ [99]) (Z.of_nat (length cut_note)) = Parsed PKT_OK [0x90; 60; 99] (Some 1).
Proof. split; [bytes|split; [repeat (apply Forall_cons; [unfold plain; lia|]); apply Forall_nil|reflexivity]]. Qed.
Lemma c57_refuted :
  process_rtp_midi_packet cut_note (Z.of_nat (length cut_note)) = PFault F_oob /\
  forall more, Forall plain more -> process_rtp_midi_packet (open_sysex ++ more) (Z.of_nat (length open_sysex)) = PFault F_oob.
Proof. split; [reflexivity|exact runaway]. Qed.
