(** What reaches the interface over the serial cable, and when. *)
From Verif Require Import Base RingBufModel SchedulerModel MidiModel MidiSpec RxModel RxSpec SerialModel DevModel DevSpec AppModel AppSpec SoundSpec MachineModel.

(** Bytes received and vertical blanks, so far. *)
Definition arrived (evs : list mevent) : list Z :=
  flat_map (fun e => match e with BArrive b => [b] | _ => [] end) evs.
Fixpoint blanks (evs : list mevent) : Z :=
  match evs with [] => 0 | BBlank :: t => 1 + blanks t | _ :: t => blanks t end.

(** [m] is the state and [tr] all events after power-on and [evs]. *)
Definition running (r : rom) (hw : hardware) (mem arr : list Z) (evs : list mevent) (m : machine) (tr : list event) : Prop :=
  rom_ok r /\ mem_ok mem /\ (512 <= length arr)%nat /\
  exists a o1 o2, app_boot r hw mem [] = Done tt a o1 /\ machine_run r evs (machine_start a arr) = Done tt m o2 /\ tr = o1 ++ o2.
(** No byte arrives while the receive buffer is full (511 bytes are waiting). *)
Definition no_overrun (r : rom) (hw : hardware) (mem arr : list Z) (evs : list mevent) : Prop :=
  forall pre b post m tr, evs = pre ++ BArrive b :: post -> running r hw mem arr pre m tr -> ring_buf_can_write (sl_ring (mc_port m)) = true.

(** The main loop is not in the middle of the frame handlers. *)
Definition at_rest (m : machine) : Prop := sc_pc (mc_sched m) = SchedulerModel.PTick.
(** No received byte is waiting to be read. *)
Definition caught_up (m : machine) : Prop := serial_read_ready (mc_port m) = false.

(** The messages of a history. *)
Definition msgs (ops : list aop) : list mop := flat_map (fun op => match op with AMsg m => [m] | AFrame => [] end) ops.

(** [read] is the messages [l1] and perhaps the beginning of the first of [l2].  (A
    system exclusive message of 256 bytes is complete before its end byte.) *)
Definition has_read (l1 l2 : list msg) (read : list Z) : Prop :=
  (exists part, read = stream l1 ++ part /\
     match l2 with [] => part = [] | m :: _ => exists more, more <> [] /\ encode m = part ++ more end) \/
  (exists l0 body, l1 = l0 ++ [SysEx body] /\ length body = 256%nat /\ read = stream l0 ++ 0xF0 :: body).

(** Frames performed in a history. *)
Fixpoint frames_done (ops : list aop) : Z :=
  match ops with [] => 0 | AFrame :: t => 1 + frames_done t | AMsg _ :: t => frames_done t end.
(** All earlier blanks have been seen to. *)
Definition seen_to (s : sched) : Prop := sc_frame s = sc_prev s /\ (sc_pc s = SchedulerModel.PTick \/ sc_pc s = PCmp).
(** The main loop keeps up with the screen: every blank finds the earlier ones seen to. *)
Definition prompt (r : rom) (hw : hardware) (mem arr : list Z) (evs : list mevent) : Prop :=
  forall pre post m tr, evs = pre ++ BBlank :: post -> running r hw mem arr pre m tr -> seen_to (mc_sched m).

(** Steps of the main loop. *)
Definition turns (evs : list mevent) : nat := length (filter (fun e => match e with BMain => true | _ => false end) evs).
(** The bytes that would wait if every step of the main loop read one, and the condition
    that they are never more than [cap]: at most [cap] bytes more arrive, over any
    stretch of time, than the main loop makes steps. *)
Definition bucket_step (n : nat) (e : mevent) : nat := match e with BArrive _ => S n | BMain => pred n | BBlank => n end.
Fixpoint bucket_within (cap n : nat) (evs : list mevent) : Prop :=
  match evs with [] => True | e :: t => (bucket_step n e <= cap)%nat /\ bucket_within cap (bucket_step n e) t end.

(** A message whose first byte makes the interface wait for the rest.  (The bytes of the
    others are skipped one by one; a system exclusive message of 256 bytes does not wait
    for its end byte.) *)
Definition opens (m : msg) : Prop :=
  match m with
  | NoteOff _ _ _ | NoteOn _ _ _ | Control _ _ _ | Program _ _ | Bend _ _ => True
  | SysEx body => (length body < 256)%nat
  | _ => False
  end.

(** The messages [l] have arrived and been read, and the main loop is between frames. *)
Definition received (r : rom) (hw : hardware) (mem arr : list Z) (evs : list mevent) (l : list msg) (m : machine) (tr : list event) : Prop :=
  running r hw mem arr evs m tr /\ Forall msg_ok l /\ arrived evs = stream l /\ no_overrun r hw mem arr evs /\ at_rest m /\ caught_up m.
(** What the messages [l] ask for. *)
Definition told (l : list msg) : list aop := map AMsg (meanings [] l).
(** A blank whose frame has not been performed. *)
Definition pending (m : machine) : Z := if sc_frame (mc_sched m) =? sc_prev (mc_sched m) then 0 else 1.
(** The next step of the main loop reads the last byte of message [x], which follows
    the messages [l]. *)
Definition completes_with (r : rom) (hw : hardware) (mem arr : list Z) (evs : list mevent) (l : list msg) (x : msg) (m : machine) : Prop :=
  arrived evs = stream (l ++ [x]) /\ at_rest m /\ ~ caught_up m /\
  exists tr m' tr', running r hw mem arr evs m tr /\ running r hw mem arr (evs ++ [BMain]) m' tr' /\ caught_up m'.

(** A note for the PSG channel of MIDI channel [c] (7 to 10; 6 to 9 from 0) after [l], in
    static mode and without portamento, when fewer than ten keys of the channel are down
    and the pitch is one the PSG can play. *)
Definition wire_psg (l : list msg) (c p v : Z) : Prop :=
  6 <= c < 10 /\ 1 <= v /\ without remaps (told l) /\ without remapping (told l) /\ without (eq MReset) (told l) /\ without (is_cc 65) (told l) /\
  (length (filter (fun k => Z.eqb (fst k) c) (MidiSpec.held (meanings [] l))) < 10)%nat /\
  0 <= bent (meanings [] l) c p /\ 45 <= pitched (meanings [] l) c p / 100.

(** Neither switches the sample channel on nor uploads half a byte of an envelope. *)
Definition calm (m : mop) : Prop := ~ is_cc 78 m /\ ~ odd_envelope m.
