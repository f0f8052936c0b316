(** C103-C105: the interface played over the network. *)
From Verif Require Import Base SynthSpec MidiModel MidiSpec DevModel DevSpec AppModel AppSpec AppExampleProofs RxModel RxSpec MachineSpec NetModel NetSpec.
From Verif Require RtpSpec RtpExampleProofs NetExampleProofs.
From Verif Require Import WifiModel WifiSpec ReplyProofs WifiProofs WifiExampleProofs.

(** ** C103 *)
(** Whatever happens on the network, as long as the MIDI packets are among those the
    parser copes with, the interface does exactly what the messages in them and the
    frames say, in their order; and it is ready for the next packet.
    Missing from the full claim: the other packets (C55_refuted, C57_refuted,
    C105_refuted), and the choice among several transports (C05). *)
Theorem C103_performed_partial : forall r hw mem evs ops s out radio, on_air r hw mem evs s out radio -> asks false evs ops ->
  history r hw mem ops (w_app s) out /\ waiting s = false.
Proof. intros r hw mem evs ops s out radio H A. destruct (on_air_does _ _ _ _ _ _ _ _ H A) as (X & Y & _). exact (conj X Y). Qed.
Print Assumptions C103_performed_partial.

(** And whatever a player could have it do with those messages, the network brings
    about. *)
Theorem C103_plays_partial : forall r hw mem evs ops a out, history r hw mem ops a out -> Forall wev_ok evs -> asks false evs ops ->
  exists s radio, on_air r hw mem evs s out radio /\ w_app s = a.
Proof. exact on_air_can. Qed.
Print Assumptions C103_plays_partial.
Example C103_nonvacuous : exists s out radio, on_air (shipped false) no_cartridge blank_memory song_events s out radio /\ asks false song_events song_ops /\
  key_state out 0 = Some true.
Proof. exact c103_example. Qed.

(** Every such packet is a list of MIDI messages. *)
Theorem C103_packets : forall hdr sec journal, RtpSpec.packet_ok hdr sec journal -> RtpSpec.handled sec -> session_data (RtpSpec.rtp_packet hdr sec journal) = false ->
  exists l, RxSpec.stream l = RtpSpec.stream sec /\ brings 2 (RtpSpec.rtp_packet hdr sec journal) l.
Proof. exact packet_brings. Qed.
Print Assumptions C103_packets.
Example C103_packets_nonvacuous : RtpSpec.packet_ok RtpExampleProofs.hdr0 song [] /\ RtpSpec.handled song /\
  session_data (RtpSpec.rtp_packet RtpExampleProofs.hdr0 song []) = false.
Proof. exact (conj song_ok (conj song_handled eq_refl)). Qed.

(** ** C104 *)
(** The network layer sees exactly the polls and frames, and is given to send exactly
    what the interface answers: each write is the whole answer to one message that
    asked for it, a pong or an instrument. *)
Theorem C104_answers_partial : forall r hw mem evs ops s out radio, on_air r hw mem evs s out radio -> asks false evs ops ->
  exists nops, nhistory nops (w_net s) radio /\ polled nops = evs /\ concat (written nops) = DevSpec.sent out /\
    Forall (fun w => w <> [] /\ exists m, In (AMsg m) ops /\ reply_ok m w) (written nops).
Proof. intros r hw mem evs ops s out radio H A. destruct (on_air_does _ _ _ _ _ _ _ _ H A) as (_ & _ & X). exact X. Qed.
Print Assumptions C104_answers_partial.
Example C104_answers_nonvacuous : exists s out radio h, on_air (shipped false) no_cartridge blank_memory ping_events s out radio /\ asks false ping_events (told [a_ping]) /\
  DevSpec.sent out = pong /\ In (2, h ++ pong) (handed_over radio).
Proof. exact c104_example. Qed.

(** On any transport: a frame sends nothing, a message at most the answer it asks for. *)
Theorem C104_asked : forall r hw mem ops op s0 tr0 s o, history r hw mem ops s0 tr0 -> aop_ok op -> app_step r op s0 = Done tt s o ->
  match op with AMsg m => reply_ok m (DevSpec.sent o) | AFrame => DevSpec.sent o = [] end.
Proof. exact step_replies. Qed.
Print Assumptions C104_asked.
Theorem C104_power_on : forall r hw mem a o, rom_ok r -> mem_ok mem -> app_boot r hw mem [] = Done tt a o -> DevSpec.sent o = [].
Proof. exact boot_silent. Qed.
Print Assumptions C104_power_on.

(** Refuted, that every answer reaches the network: of two pings in one packet only one
    is ever answered. *)
Theorem C104_refuted : exists s out radio h, on_air (shipped false) no_cartridge blank_memory pings_events s out radio /\ asks false pings_events (told [a_ping; a_ping]) /\
  DevSpec.sent out = pong ++ pong /\ handed_over radio = [(2, h ++ pong)] /\ in_flight radio = None /\ length h = 13%nat.
Proof. exact c104_lost. Qed.
Print Assumptions C104_refuted.

(** ** C105 *)
(** A reader that has begun a message and finds no more bytes waits for ever: nothing
    that happens later has any effect. *)
Theorem C105_stuck : forall r hw mem evs later s out radio, on_air r hw mem evs s out radio -> waiting s = true -> Forall wev_ok later ->
  on_air r hw mem (evs ++ later) s out radio.
Proof. exact air_stuck. Qed.
Print Assumptions C105_stuck.
(** Refuted, that a well-formed packet leaves the interface working: a MIDI clock and a
    program change in one packet, and no later packet or frame does anything. *)
Theorem C105_refuted : RtpSpec.packet_ok RtpExampleProofs.hdr0 clocked [] /\ RtpSpec.stream clocked = RxSpec.stream [RealTime 0xF8; Program 0 5] /\
  exists s out radio, forall later, Forall wev_ok later -> on_air (shipped false) no_cartridge blank_memory ([listens; gets clocked] ++ later) s out radio.
Proof. exact c105_witness. Qed.
Print Assumptions C105_refuted.
