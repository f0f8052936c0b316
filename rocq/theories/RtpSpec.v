(** RTP-MIDI packets (RFC 6295, sections 2 and 3), independent of the parser. *)
From Verif Require Import Base.

Definition byte (b : Z) : Prop := 0 <= b < 256.
Definition data_byte (b : Z) : Prop := 0 <= b < 128.

(** A MIDI command: a status byte with its data, or a complete System Exclusive
    message with the bytes between 0xF0 and 0xF7. *)
Inductive command := Cmd (st : Z) (ds : list Z) | Sysex (ds : list Z).

(** Data bytes that follow a status byte (MIDI 1.0). *)
Definition data_count (st : Z) : nat :=
  if st <? 0xC0 then 2 else if st <? 0xE0 then 1 else if st <? 0xF0 then 2
  else if (st =? 0xF1) || (st =? 0xF3) then 1 else if st =? 0xF2 then 2 else 0.

(** Statuses of MIDI 1.0: channel messages, system common, real time. *)
Definition status_ok (st : Z) : Prop :=
  (0x80 <= st < 0xF0) \/ st = 0xF1 \/ st = 0xF2 \/ st = 0xF3 \/ st = 0xF6 \/ (0xF8 <= st <= 0xFF).

Definition command_ok (c : command) : Prop :=
  match c with
  | Cmd st ds => status_ok st /\ length ds = data_count st /\ Forall data_byte ds
  | Sysex ds => Forall data_byte ds
  end.

(** The command as a MIDI byte stream. *)
Definition midi_bytes (c : command) : list Z :=
  match c with Cmd st ds => st :: ds | Sysex ds => 0xF0 :: ds ++ [0xF7] end.

(** One entry of a command list: its delta time (absent from the first entry
    unless the Z flag is set), whether the status byte is left out (running
    status), and the command. *)
Record item := Item { it_delta : list Z; it_omit : bool; it_cmd : command }.

(** A delta time: up to three continuation bytes, then a final byte. *)
Definition delta_ok (d : list Z) : Prop :=
  exists more last, d = more ++ [last] /\ (length more <= 3)%nat /\ Forall (fun b => 128 <= b < 256) more /\ data_byte last.

(** Running status after a command: channel messages set it, system common and
    exclusive messages cancel it, real-time messages leave it. *)
Definition running (run : option Z) (c : command) : option Z :=
  match c with
  | Cmd st _ => if st <? 0xF0 then Some st else if st <? 0xF8 then None else run
  | Sysex _ => None
  end.

Definition omit_ok (run : option Z) (it : item) : Prop :=
  it_omit it = true -> exists st ds, it_cmd it = Cmd st ds /\ run = Some st.

Fixpoint rest_ok (run : option Z) (l : list item) : Prop :=
  match l with
  | [] => True
  | it :: l => delta_ok (it_delta it) /\ command_ok (it_cmd it) /\ omit_ok run it /\ rest_ok (running run (it_cmd it)) l
  end.

Definition item_bytes (it : item) : list Z :=
  it_delta it ++ (if it_omit it then tl (midi_bytes (it_cmd it)) else midi_bytes (it_cmd it)).

(** A command section: the B, J, Z and P flags, the entries, and possibly a last
    delta time with an empty command. *)
Record section := Section_of { sec_long : bool; sec_j : bool; sec_z : bool; sec_p : bool; sec_items : list item; sec_trailing : list Z }.

Definition list_bytes (sec : section) : list Z := flat_map item_bytes (sec_items sec) ++ sec_trailing sec.
Definition list_length (sec : section) : Z := Z.of_nat (length (list_bytes sec)).

Definition section_ok (sec : section) : Prop :=
  list_length sec <= (if sec_long sec then 4095 else 15) /\
  match sec_items sec with
  | [] => sec_trailing sec = []
  | it :: l =>
      (if sec_z sec then delta_ok (it_delta it) else it_delta it = []) /\
      command_ok (it_cmd it) /\ omit_ok None it /\ rest_ok (running None (it_cmd it)) l /\
      (sec_trailing sec = [] \/ delta_ok (sec_trailing sec))
  end.

Definition flags (sec : section) : Z := 64 * b2z (sec_j sec) + 32 * b2z (sec_z sec) + 16 * b2z (sec_p sec).

Definition section_bytes (sec : section) : list Z :=
  (if sec_long sec then [128 + flags sec + list_length sec / 256; list_length sec mod 256] else [flags sec + list_length sec])
  ++ list_bytes sec.

(** A packet: twelve bytes of RTP header, the command section, a journal. *)
Definition rtp_packet (hdr : list Z) (sec : section) (journal : list Z) : list Z := hdr ++ section_bytes sec ++ journal.
Definition packet_ok (hdr : list Z) (sec : section) (journal : list Z) : Prop :=
  length hdr = 12%nat /\ Forall byte hdr /\ section_ok sec /\ Forall byte journal /\
  Z.of_nat (length (rtp_packet hdr sec journal)) < 65536.

(** What a receiver must hand on, and the sequence number of the packet. *)
Definition stream (sec : section) : list Z := flat_map (fun it => midi_bytes (it_cmd it)) (sec_items sec).
Definition seq_of (hdr : list Z) : Z := 256 * nth 2 hdr 0 + nth 3 hdr 0.

(** ** The packets the parser copes with *)
(** Delta bytes it does not take for a command. *)
Definition quiet_delta (d : list Z) : Prop := Forall (fun b => b <> 0xF0 /\ b <> 0xF7 /\ b <> 0xFF) d.
(** A status that carries data, or System Reset. *)
Definition carried (c : command) : Prop :=
  match c with Cmd st _ => st = 0xFF \/ data_count st <> 0%nat | Sysex _ => True end.
Definition is_reset (c : command) : Prop := match c with Cmd st _ => st = 0xFF | Sysex _ => False end.
(** A delta time of more than one byte is followed by a command with its own
    status byte, other than System Reset. *)
Definition item_handled (it : item) : Prop :=
  quiet_delta (it_delta it) /\ ((length (it_delta it) > 1)%nat -> it_omit it = false /\ ~ is_reset (it_cmd it)) /\ carried (it_cmd it).
Definition handled (sec : section) : Prop :=
  sec_z sec = false /\ list_length sec <= 255 /\ Forall item_handled (sec_items sec) /\ quiet_delta (sec_trailing sec).
