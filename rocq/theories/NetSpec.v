(** What the network transport shows to the outside. *)
From Verif Require Import Base RtpModel AppleModel NetModel RtpSpec.

(** Datagrams delivered by the library: six bytes of address and at most what the
    buffer holds. Written data and frame counts as the callers produce them. *)
Definition callback_ok (c : callback) : Prop :=
  match c with CbRecv ch d => 0 <= ch < 256 /\ Forall byte d /\ 6 <= Z.of_nat (length d) <= 1460 | _ => True end.
Definition nop_ok (op : nop) : Prop :=
  match op with
  | NTick cbs _ _ => Forall callback_ok cbs
  | NWrite d => Forall byte d /\ Z.of_nat (length d) < 65536
  | NVsync d => 0 <= d < 65536
  | NRead => True
  end.
Definition nhistory (ops : list nop) (s : net) (tr : list nev) : Prop :=
  Forall nop_ok ops /\ net_run ops net_boot = NDone tt s tr.

(** ** Sending *)
(** The request the library is working on. *)
Definition in_flight1 (p : option (list Z)) (e : nev) : option (list Z) :=
  match e with NSend _ b true => Some b | NSent => None | _ => p end.
Definition in_flight (tr : list nev) : option (list Z) := fold_left in_flight1 tr None.

(** Packets accepted for sending; payloads handed to the library, without the six
    bytes of address. *)
Definition accepted (tr : list nev) : list (Z * list Z) := flat_map (fun e => match e with NQueued ch d => [(ch, d)] | _ => [] end) tr.
Definition handed_over (tr : list nev) : list (Z * list Z) := flat_map (fun e => match e with NSend ch p _ => [(ch, skipn 6 p)] | _ => [] end) tr.
(** The library reports as sent only what it is sending. *)
Definition honest (tr : list nev) : Prop := forall a b, tr = a ++ NSent :: b -> in_flight a <> None.

(** ** Receiver feedback *)
Definition frames (tr : list nev) : Z := fold_right (fun e n => match e with NFrames d => d + n | _ => n end) 0 tr.
Definition is_feedback (ch : Z) (d : list Z) : Prop := ch = 1 /\ exists d', d = [0xFF; 0xFF; 82; 83] ++ d'.
(** Nothing is queued but receiver feedback; nothing is sent. *)
Definition quiet (later : list nev) : Prop := forall e, In e later -> (exists c q, e = NQueued c q /\ is_feedback c q) \/ exists b, e = NArmed b.
(** The packet acknowledging sequence number [q]. *)
Definition feedback_for (q : Z) : list Z := [0xFF; 0xFF; 82; 83; 0x9E; 0x91; 0x51; 0x50; q / 256; q mod 256; 0; 0].

(** Sequence number in the last feedback packet. *)
Definition acked1 (q : Z) (e : nev) : Z :=
  match e with NQueued 1 (0xFF :: 0xFF :: 82 :: 83 :: _ :: _ :: _ :: _ :: h :: l :: _) => h * 256 + l | _ => q end.
Definition acked (tr : list nev) : Z := fold_left acked1 tr 0.

(** Session packets are signed 0xFFFF. *)
Definition session_data (d : list Z) : bool := match d with b0 :: b1 :: _ => (b0 =? 0xFF) && (b1 =? 0xFF) | _ => false end.
(** An RTP-MIDI packet whose length field (as the parser reads it) fits. *)
Definition rtp_data (d : list Z) : bool :=
  negb (session_data d) &&
  match nth_error d 12 with
  | None => false
  | Some c0 =>
      if c0 <? 128 then 13 + c0 mod 16 <=? Z.of_nat (length d)
      else match nth_error d 13 with
           | None => false
           | Some c1 => 14 + ((c0 mod 16) * 4096 + c1) <=? Z.of_nat (length d)
           end
  end.
(** Sequence number of the most recent such packet. *)
Definition last_seq1 (q : Z) (e : nev) : Z :=
  match e with NGot ch d => if (ch =? 2) && rtp_data d then seq_of d else q | _ => q end.
Definition last_seq (tr : list nev) : Z := fold_left last_seq1 tr 0.
