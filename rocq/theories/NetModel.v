(** Model of comm/comm_megawifi.c, once listening (comm_megawifi_init has
    succeeded). The MegaWiFi library is the environment: at each poll it makes any
    callbacks it likes and answers the requests as it likes. What the program asks
    of the library is a trace; the callbacks and frames it sees are recorded in the
    same trace so that statements can refer to their order. Log output is left
    out. *)
From Verif Require Import Base RingBufModel RtpModel AppleModel.

(** comm/comm_megawifi.h:4, comm/comm_megawifi.c:14-16 *)
Definition MW_RX_TX_BUFFER_SIZE : Z := 1460.
Definition REUSE_PAYLOAD_HEADER_LEN : Z := 6.
Definition RECEIVER_FEEDBACK_FRAME_FREQUENCY : Z := 10.
Definition SEND_RTP_MIDI_PACKET_BUFFER_LEN : Z := 256.

(** comm/comm_megawifi.c:33-34 *)
Inductive rx_state := RX_IDLE | RX_ARMED | RX_BUFFERED.
Inductive tx_state := TX_IDLE | TX_QUEUED | TX_INFLIGHT.

(** Statics of comm/comm_megawifi.c:20-44 with those of rtpmidi.c and applemidi.c.
    [cmd_buf] belongs to the library; [listening] is true. *)
Record net := mkNet {
  n_recv_data : bool; n_ring : ring; n_connected : bool; n_frame : Z; n_last_seq : Z;
  n_ip : Z; n_control_port : Z; n_midi_port : Z;
  n_rx : rx_state; n_rx_ch : Z; n_rx_len : Z; n_rx_buf : list Z;
  n_tx : tx_state; n_tx_ch : Z; n_tx_len : Z; n_tx_buf : list Z;
  n_apple : apple; n_send_seq : Z }.

(** Record updates. *)
Definition set_emit (d : bool) (r : ring) (s : net) : net :=
  mkNet d r (n_connected s) (n_frame s) (n_last_seq s) (n_ip s) (n_control_port s) (n_midi_port s)
    (n_rx s) (n_rx_ch s) (n_rx_len s) (n_rx_buf s) (n_tx s) (n_tx_ch s) (n_tx_len s) (n_tx_buf s) (n_apple s) (n_send_seq s).
Definition set_feedback (f l : Z) (s : net) : net :=
  mkNet (n_recv_data s) (n_ring s) (n_connected s) f l (n_ip s) (n_control_port s) (n_midi_port s)
    (n_rx s) (n_rx_ch s) (n_rx_len s) (n_rx_buf s) (n_tx s) (n_tx_ch s) (n_tx_len s) (n_tx_buf s) (n_apple s) (n_send_seq s).
Definition set_endpoint (c : bool) (ip cp mp : Z) (s : net) : net :=
  mkNet (n_recv_data s) (n_ring s) c (n_frame s) (n_last_seq s) ip cp mp
    (n_rx s) (n_rx_ch s) (n_rx_len s) (n_rx_buf s) (n_tx s) (n_tx_ch s) (n_tx_len s) (n_tx_buf s) (n_apple s) (n_send_seq s).
Definition set_rx (x : rx_state) (ch len : Z) (b : list Z) (s : net) : net :=
  mkNet (n_recv_data s) (n_ring s) (n_connected s) (n_frame s) (n_last_seq s) (n_ip s) (n_control_port s) (n_midi_port s)
    x ch len b (n_tx s) (n_tx_ch s) (n_tx_len s) (n_tx_buf s) (n_apple s) (n_send_seq s).
Definition set_tx (x : tx_state) (ch len : Z) (b : list Z) (s : net) : net :=
  mkNet (n_recv_data s) (n_ring s) (n_connected s) (n_frame s) (n_last_seq s) (n_ip s) (n_control_port s) (n_midi_port s)
    (n_rx s) (n_rx_ch s) (n_rx_len s) (n_rx_buf s) x ch len b (n_apple s) (n_send_seq s).
Definition set_apple (a : apple) (s : net) : net :=
  mkNet (n_recv_data s) (n_ring s) (n_connected s) (n_frame s) (n_last_seq s) (n_ip s) (n_control_port s) (n_midi_port s)
    (n_rx s) (n_rx_ch s) (n_rx_len s) (n_rx_buf s) (n_tx s) (n_tx_ch s) (n_tx_len s) (n_tx_buf s) a (n_send_seq s).
Definition set_send_seq (q : Z) (s : net) : net :=
  mkNet (n_recv_data s) (n_ring s) (n_connected s) (n_frame s) (n_last_seq s) (n_ip s) (n_control_port s) (n_midi_port s)
    (n_rx s) (n_rx_ch s) (n_rx_len s) (n_rx_buf s) (n_tx s) (n_tx_ch s) (n_tx_len s) (n_tx_buf s) (n_apple s) q.
Definition set_rx_state (x : rx_state) (s : net) : net := set_rx x (n_rx_ch s) (n_rx_len s) (n_rx_buf s) s.
Definition set_tx_state (x : tx_state) (s : net) : net := set_tx x (n_tx_ch s) (n_tx_len s) (n_tx_buf s) s.

(** comm_megawifi_init, comm/comm_megawifi.c:51-76 and the power-on values of
    applemidi.c, rtpmidi.c. *)
Definition net_boot : net :=
  mkNet false (mkRing (Some (repeat 0 1460)) 0 0 MW_RX_TX_BUFFER_SIZE) false 0 0 0 0 0
    RX_IDLE 0 0 (repeat 0 1460) TX_IDLE 0 0 (repeat 0 1460) apple_init 1.

(** What happens, in order: a packet is accepted for sending (comm_megawifi_send),
    handed to the library (with its answer), reported sent; a datagram is processed;
    frames pass; a receive buffer is handed to the library. *)
Inductive nev :=
| NQueued (ch : Z) (data : list Z)
| NSend (ch : Z) (payload : list Z) (ok : bool)
| NSent
| NGot (ch : Z) (data : list Z)
| NFrames (d : Z)
| NArmed (ok : bool).

Inductive nres (A : Type) := NDone (a : A) (s : net) (o : list nev) | NFault (f : fault).
Arguments NDone {A}. Arguments NFault {A}.
Definition N (A : Type) : Type := net -> nres A.
Definition nret {A} (a : A) : N A := fun s => NDone a s [].
Definition nbind {A B} (m : N A) (k : A -> N B) : N B := fun s =>
  match m s with
  | NFault f => NFault f
  | NDone a s1 o1 => match k a s1 with NFault f => NFault f | NDone b s2 o2 => NDone b s2 (o1 ++ o2) end
  end.
Definition nfail {A} (f : fault) : N A := fun _ => NFault f.
Definition nget : N net := fun s => NDone s s [].
Definition nmod (g : net -> net) : N unit := fun s => NDone tt (g s) [].
Definition nlog (e : nev) : N unit := fun s => NDone tt s [e].
Definition nthen (m k : N unit) : N unit := nbind m (fun _ => k).

(** memcpy of [data] to index [i] of an array that has the room. *)
Definition splice (buf : list Z) (i : Z) (data : list Z) : list Z :=
  firstn (Z.to_nat i) buf ++ data ++ skipn (Z.to_nat i + length data) buf.

(** comm_megawifi_midiEmitCallback, comm/comm_megawifi.c:366-373 *)
Definition emit_callback (data : Z) : N unit := fun s =>
  match ring_buf_write data (n_ring s) with
  | Done _ r _ => NDone tt (set_emit true r s) []
  | Fault f => NFault f
  end.
Fixpoint emit_all (l : list Z) : N unit :=
  match l with [] => nret tt | b :: l => nthen (emit_callback b) (emit_all l) end.

(** comm_megawifi_send, comm/comm_megawifi.c:422-438 *)
Definition net_send (ch : Z) (data : list Z) : N unit :=
  nbind nget (fun s =>
    match n_tx s with
    | TX_IDLE =>
        if MW_RX_TX_BUFFER_SIZE <? Z.of_nat (length data) + REUSE_PAYLOAD_HEADER_LEN then nret tt
        else nthen (nmod (fun s => set_tx TX_QUEUED ch (Z.of_nat (length data)) (splice (n_tx_buf s) REUSE_PAYLOAD_HEADER_LEN data) s))
                   (nlog (NQueued ch data))
    | _ => nret tt
    end).
Fixpoint send_all (l : list (Z * list Z)) : N unit :=
  match l with [] => nret tt | (ch, d) :: l => nthen (net_send ch d) (send_all l) end.

(** reset_remote_endpoint, comm/comm_megawifi.c:273-279 *)
Definition reset_remote_endpoint : N unit := nmod (set_endpoint false 0 0 0).

(** process_udp_data, comm/comm_megawifi.c:239-259; [buffer]: rxBuffer from the
    payload on. [len] is the [int] rxLen passed as [u16]. *)
Definition process_udp_data (ch : Z) (buffer : list Z) (len : Z) : N unit :=
  let len := u16 len in
  if ch =? CH_CONTROL_PORT then
    nbind nget (fun s =>
      match process_session_control_packet buffer len (n_apple s) with
      | AFault f => nfail f
      | ADone _ ended sends a =>
          nthen (nmod (set_apple a)) (nthen (send_all sends) (if ended then reset_remote_endpoint else nret tt))
      end)
  else if ch =? CH_MIDI_PORT then
    match has_apple_midi_signature buffer len with
    | None => nfail F_oob
    | Some true =>
        nbind nget (fun s =>
          match process_session_midi_packet buffer len (n_apple s) with
          | AFault f => nfail f
          | ADone _ _ sends a => nthen (nmod (set_apple a)) (send_all sends)
          end)
    | Some false =>
        match process_rtp_midi_packet buffer len with
        | PFault f => nfail f
        | Parsed _ o seq =>
            nthen (emit_all o)
              (match seq with
               | Some q => nmod (fun s => set_apple (update_last_seq_num q (n_apple s)) s)
               | None => nret tt
               end)
        end
    end
  else nret tt.

(** persist_remote_endpoint, comm/comm_megawifi.c:261-271 *)
Definition persist_remote_endpoint (ch ip port : Z) (s : net) : net :=
  if ch =? CH_CONTROL_PORT then set_endpoint (n_connected s) ip port (u16 (port + 1)) s
  else if ch =? CH_MIDI_PORT then set_endpoint (n_connected s) ip (u16 (port - 1)) port s
  else set_endpoint (n_connected s) ip (n_control_port s) (n_midi_port s) s.

(** A callback of the library: a datagram (sender address and port in the first six
    bytes) placed in the receive buffer or a receive error; a send finished. *)
Inductive callback := CbRecv (ch : Z) (data : list Z) | CbRecvError | CbSent.

(** recv_complete_cb, comm/comm_megawifi.c:287-313. The library has written [data]
    to the start of rxBuffer; it does so only while a receive is armed. The address
    is read from the buffer even if fewer than six bytes came. *)
Definition recv_complete (ch : Z) (data : list Z) : N unit := fun s =>
  match n_rx s with
  | RX_ARMED =>
      let buf := splice (n_rx_buf s) 0 data in
      match buf with
      | a3 :: a2 :: a1 :: a0 :: p1 :: p0 :: _ =>
          NDone tt (persist_remote_endpoint ch (be32 a3 a2 a1 a0) (p1 * 256 + p0)
                      (set_rx RX_BUFFERED ch (Z.of_nat (length data) - REUSE_PAYLOAD_HEADER_LEN) buf s)) []
      | _ => NFault F_oob
      end
  | _ => NDone tt s []
  end.
Definition recv_error : N unit := fun s =>
  match n_rx s with RX_ARMED => NDone tt (set_rx_state RX_IDLE s) [] | _ => NDone tt s [] end.

(** send_complete_cb, comm/comm_megawifi.c:375-383 *)
Definition send_complete : N unit := nthen (nmod (set_tx_state TX_IDLE)) (nlog NSent).

Definition call_back (c : callback) : N unit :=
  match c with CbRecv ch d => recv_complete ch d | CbRecvError => recv_error | CbSent => send_complete end.
Fixpoint call_backs (l : list callback) : N unit :=
  match l with [] => nret tt | c :: l => nthen (call_back c) (call_backs l) end.

(** send_buffered_packet with restore_remote_endpoint,
    comm/comm_megawifi.c:281-285, 385-420. [ok]: the library accepts the request. *)
Definition send_buffered_packet (ok : bool) : N unit :=
  nbind nget (fun s =>
    match n_tx s with
    | TX_QUEUED =>
        let ip := n_ip s in
        let port := if n_tx_ch s =? CH_CONTROL_PORT then n_control_port s else n_midi_port s in
        let buf := splice (n_tx_buf s) 0 (to_be32 ip ++ [u8 (port / 256); u8 port]) in
        nthen (nmod (fun s => set_endpoint true (n_ip s) (n_control_port s) (n_midi_port s)
                                (set_tx (if ok then TX_INFLIGHT else TX_IDLE) (n_tx_ch s) (n_tx_len s) buf s)))
              (nlog (NSend (n_tx_ch s) (firstn (Z.to_nat (n_tx_len s + REUSE_PAYLOAD_HEADER_LEN)) buf) ok))
    | _ => nret tt
    end).

(** send_receiver_feedback, comm/comm_megawifi.c:320-332 *)
Definition send_receiver_feedback : N unit :=
  nbind nget (fun s =>
    if n_frame s <? RECEIVER_FEEDBACK_FRAME_FREQUENCY then nret tt
    else
      nthen (if n_last_seq s =? ap_seq (n_apple s) then nret tt
             else nthen (net_send CH_CONTROL_PORT (receiver_feedback (n_apple s)))
                        (nmod (fun s => set_feedback (n_frame s) (ap_seq (n_apple s)) s)))
            (nmod (fun s => set_feedback 0 (n_last_seq s) s))).

(** comm_megawifi_tick, comm/comm_megawifi.c:334-364. [cbs]: the callbacks made by
    mw_process; [send_ok], [recv_ok]: the library's answers. *)
Definition net_tick (cbs : list callback) (send_ok recv_ok : bool) : N unit :=
  nthen (call_backs cbs)
  (nthen (nbind nget (fun s =>
     match n_rx s with
     | RX_BUFFERED =>
         let buffer := skipn (Z.to_nat REUSE_PAYLOAD_HEADER_LEN) (n_rx_buf s) in
         nthen (nlog (NGot (n_rx_ch s) (firstn (Z.to_nat (n_rx_len s)) buffer)))
         (nthen (process_udp_data (n_rx_ch s) buffer (n_rx_len s)) (nmod (set_rx_state RX_IDLE)))
     | _ => nret tt
     end))
  (nthen (send_buffered_packet send_ok)
  (nthen (nbind nget (fun s => match n_tx s with TX_IDLE => send_receiver_feedback | _ => nret tt end))
     (nbind nget (fun s =>
        match n_rx s with
        | RX_IDLE => nthen (nlog (NArmed recv_ok)) (if recv_ok then nmod (set_rx_state RX_ARMED) else nret tt)
        | _ => nret tt
        end))))).

(** comm_megawifi_write, comm/comm_megawifi.c:229-237; [sizeof(buffer)] as [u16]. *)
Definition net_write (data : list Z) : N unit :=
  nbind nget (fun s =>
    match pack_rtp_midi_packet (n_send_seq s) (ap_lo (n_apple s)) data (u16 (SEND_RTP_MIDI_PACKET_BUFFER_LEN + Z.of_nat (length data))) with
    | None => nret tt
    | Some (pkt, q) => nthen (nmod (set_send_seq q)) (net_send CH_MIDI_PORT pkt)
    end).

(** comm_megawifi_vsync, comm/comm_megawifi.c:315-318 *)
Definition net_vsync (delta : Z) : N unit :=
  nthen (nmod (fun s => set_feedback (u16 (n_frame s + delta)) (n_last_seq s) s)) (nlog (NFrames delta)).

(** comm_megawifi_read_ready, comm_megawifi_read, comm/comm_megawifi.c:202-222 *)
Definition net_read_ready (s : net) : bool := if n_recv_data s then ring_buf_can_read (n_ring s) else false.
Definition net_read : N Z := fun s =>
  match ring_buf_read (n_ring s) with
  | Fault f => NFault f
  | Done (RB_OK, Some d) r _ => NDone d (set_emit (n_recv_data s) r s) []
  | Done _ r _ => NDone 0 (set_emit (n_recv_data s) r s) []
  end.

(** ** Schedules *)
Inductive nop := NTick (cbs : list callback) (send_ok recv_ok : bool) | NWrite (data : list Z) | NVsync (delta : Z) | NRead.
Definition net_step (op : nop) : N unit :=
  match op with
  | NTick cbs a b => net_tick cbs a b
  | NWrite d => net_write d
  | NVsync d => net_vsync d
  | NRead => nbind net_read (fun _ => nret tt)
  end.
Fixpoint net_run (ops : list nop) : N unit :=
  match ops with [] => nret tt | op :: ops => nthen (net_step op) (net_run ops) end.
