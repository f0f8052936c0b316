(** Properties C58, C59, C60: AppleMIDI sessions and the network transport.
    A history is any sequence of polls (each with any callbacks of the MegaWiFi
    library and any answers to requests), writes, reads and frame counts, from the
    moment the interface listens. *)
From Verif Require Import Base RtpModel AppleModel NetModel RtpSpec NetSpec AppleSpec NetProofs AppleProofs NetReplyProofs NetExampleProofs.

(** ** C58 *)
(** Every packet, in every session state, gets the reply the protocol owes
    ([reply]: acceptance echoing the token, clock answer with count 1 echoing the
    first timestamp, otherwise none), on the port it came in on, with the result
    [verdict], whatever is left behind it in the receive buffer. *)
Theorem C58_answers : forall ch d left a, ch = 1 \/ ch = 2 -> Forall byte d -> (4 <= length d)%nat -> (36 <= length (d ++ left))%nat ->
  exists a', (if ch =? 1 then process_session_control_packet else process_session_midi_packet) (d ++ left) (Z.of_nat (length d)) a =
    ADone (verdict ch d) (ends_session ch d) (match reply ch d with Some p => [(ch, p)] | None => [] end) a'.
Proof. exact answers_long. Qed.
Print Assumptions C58_answers.
Example C58_answers_nonvacuous : verdict 1 invitation = PKT_OK /\ reply 1 invitation = Some (acceptance [0xF9; 0x15; 1; 2]) /\
  reply 2 (sync 0 0 0 5) = Some (sync_answer (sync 0 0 0 5)) /\ field 24 4 (sync_answer (sync 0 0 0 5)) = [0; 0; 0; 15] /\
  verdict 1 note_packet = PKT_INVALID_SIGNATURE /\ ends_session 1 goodbye = true.
Proof. exact c58_verdicts. Qed.

(** On the network, in any history: when nothing is waiting or on its way out, the
    poll that processes a datagram hands the reply to the library, addressed to
    where the datagram came from, and queues nothing else but receiver feedback.
    Missing from the full claim: a transmitter that is busy, refuted below. *)
Theorem C58_replied_partial : forall ops s tr cbs send_ok recv_ok s' o ch d,
  nhistory ops s tr -> Forall callback_ok cbs -> net_step (NTick cbs send_ok recv_ok) s = NDone tt s' o -> honest (tr ++ o) ->
  in_flight tr = None -> accepted tr = handed_over tr -> In (NGot ch d) o -> ch = 1 \/ ch = 2 ->
  exists raw later, In (CbRecv ch raw) cbs /\ d = skipn 6 raw /\ quiet later /\
    o = NGot ch d :: (match reply ch d with Some p => [NQueued ch p; NSend ch (firstn 6 raw ++ p) send_ok] | None => [] end) ++ later.
Proof. exact tick_reply. Qed.
Print Assumptions C58_replied_partial.
Example C58_replied_nonvacuous : exists s tr s' o, nhistory [listen] s tr /\ net_step (from_control invitation) s = NDone tt s' o /\ honest (tr ++ o) /\
  in_flight tr = None /\ accepted tr = handed_over tr /\
  o = [NGot 1 invitation; NQueued 1 (acceptance [0xF9; 0x15; 1; 2]); NSend 1 (control_from ++ acceptance [0xF9; 0x15; 1; 2]) true; NArmed true].
Proof. exact c58_tick. Qed.

(** An invitation that arrives while MIDI data is being sent is never answered. *)
Theorem C58_refuted_busy : exists s tr, nhistory busy_history s tr /\ honest tr /\ In (NGot 1 invitation) tr /\
  reply 1 invitation <> None /\ forall p, ~ In (1, p) (accepted tr).
Proof. exact c58_busy. Qed.
Print Assumptions C58_refuted_busy.

(** The second timestamp of a clock answer can lie before the first: the carry out
    of the low word is lost. *)
Theorem C58_refuted_clock : exists d p, process_session_midi_packet d (Z.of_nat (length d)) apple_init = ADone PKT_OK false [(2, p)] (mkApple 0 1 4) /\
  field 12 8 p = field 12 8 d /\ word32 (field 20 8 p) = 0x100000004 /\ word32 (field 12 8 d) = 0x1FFFFFFFA.
Proof. exact c58_clock. Qed.
Print Assumptions C58_refuted_clock.

(** ** C59 *)
(** In every history: while the library works on a request the send buffer holds
    exactly the bytes handed over; nothing is handed over while a request is being
    worked on. *)
Theorem C59_in_flight : forall ops s tr, nhistory ops s tr ->
  (forall b, in_flight tr = Some b -> exists n, b = firstn n (n_tx_buf s)) /\
  (forall a ch p ok b, tr = a ++ NSend ch p ok :: b -> in_flight a = None).
Proof. exact c59_in_flight. Qed.
Print Assumptions C59_in_flight.
Example C59_in_flight_nonvacuous : exists s tr, nhistory send_history s tr /\ honest tr /\ in_flight tr = Some (midi_from ++ own_packet) /\
  accepted tr = [(1, acceptance [0xF9; 0x15; 1; 2]); (2, own_packet)].
Proof. exact c59_example. Qed.

(** With a library that reports as sent only what it is sending: what is handed
    over is what was accepted, unchanged and in order, at most one packet waiting;
    the next poll hands over everything accepted so far; and what is written while
    nothing is waiting or in flight is accepted.
    Missing from the full claim: bytes written at other times, refuted below. *)
Theorem C59_order_partial : forall ops s tr, nhistory ops s tr -> honest tr ->
  (exists waiting, accepted tr = handed_over tr ++ waiting /\ (length waiting <= 1)%nat) /\
  (forall cbs send_ok recv_ok s' o, Forall callback_ok cbs -> net_step (NTick cbs send_ok recv_ok) s = NDone tt s' o -> honest (tr ++ o) ->
     exists later, handed_over (tr ++ o) = accepted tr ++ later) /\
  (forall data, Z.of_nat (length data) <= 1440 -> in_flight tr = None -> accepted tr = handed_over tr ->
     exists s' hdr, net_step (NWrite data) s = NDone tt s' [NQueued 2 (hdr ++ data)] /\ (length hdr = 13 \/ length hdr = 14)%nat).
Proof. exact c59_order. Qed.
Print Assumptions C59_order_partial.

(** In every history: bytes written while a packet is waiting or in flight are
    dropped; there is no queue behind it. *)
Theorem C59_refuted : (forall ops s tr data, nhistory ops s tr -> honest tr -> in_flight tr <> None \/ accepted tr <> handed_over tr ->
    exists s', net_step (NWrite data) s = NDone tt s' [] /\ n_tx_buf s' = n_tx_buf s) /\
  exists s tr, nhistory lost_history s tr /\ honest tr /\ accepted tr = [(2, own_packet)].
Proof. exact (conj busy_write c59_lost). Qed.
Print Assumptions C59_refuted.

(** ** C60 *)
(** In every history each receiver feedback comes at least ten frames after the one
    before (and after the start), carries the sequence number of the most recent
    MIDI packet, and never repeats the number acknowledged last. *)
Theorem C60_feedback_partial : forall ops s tr, nhistory ops s tr ->
  forall a b ch d, tr = a ++ NQueued ch d :: b -> is_feedback ch d ->
  10 <= frames a /\ (forall a1 a2 ch' d', a = a1 ++ NQueued ch' d' :: a2 -> is_feedback ch' d' -> 10 <= frames a2) /\
  d = feedback_for (last_seq a) /\ last_seq a <> acked a.
Proof. exact history_feedback. Qed.
Print Assumptions C60_feedback_partial.
Example C60_feedback_nonvacuous : exists s tr, nhistory stranger_history s tr /\ accepted tr = [(1, feedback_for 0x1234)] /\
  In (NSend 1 (control_from ++ feedback_for 0x1234) true) tr /\ forall d, ~ In (NGot 1 d) tr.
Proof. exact c60_stranger. Qed.

(** Feedback is sent without a session: to a stranger whose packet was taken for
    MIDI, and, after the peer said goodbye, to the address 0.0.0.0 port 0. *)
Theorem C60_refuted :
  (exists s tr, nhistory stranger_history s tr /\ accepted tr = [(1, feedback_for 0x1234)] /\
    In (NSend 1 (control_from ++ feedback_for 0x1234) true) tr /\ forall d, ~ In (NGot 1 d) tr) /\
  (exists s tr, nhistory goodbye_history s tr /\ honest tr /\
    exists a, tr = a ++ [NGot 1 goodbye; NArmed true; NFrames 10; NQueued 1 (feedback_for 0x1234); NSend 1 (repeat 0 6 ++ feedback_for 0x1234) true]).
Proof. exact (conj c60_stranger c60_goodbye). Qed.
Print Assumptions C60_refuted.
