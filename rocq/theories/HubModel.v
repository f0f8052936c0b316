(** Model of the running interface with all its transports: the main loop of main.c:31
    and scheduler.c:60-74 with the tick handler midi_rx_read_if_comm_ready
    (midi_rx.c:46-56), the choice of the transport (comm/comm.c:71-127, CommModel.v),
    everything the received messages do (AppModel.v) and what they send back.
    Simplified: a transport is a queue of received bytes ([is_present] is fixed, a byte
    that has come stays until it is read: SerialModel.v and NetModel.v
    say when that is so), and the transport in use takes a reply when it is asked to
    (the demo, comm/comm_demo.c:175-178, never does, and is never asked anything by its own
    data); at what moment of the main loop the frame handlers run, and with what number
    of frames, is left open. *)
From Verif Require Import Base MidiModel RxModel DevModel AppModel CommModel.
From Verif Require WifiModel.

(** [hb_queue i]: bytes received by transport [i] (index into commTypes,
    comm/comm.c:43-57) and not read yet; [hb_rx]: inside a message, what the reader does
    with the next byte. *)
Record hub := mkHub { hb_app : app; hb_comm : comm; hb_meter : meter; hb_queue : nat -> list Z; hb_rx : rx }.
Definition hb_set_comm (s : hub) (c : comm) : hub := mkHub (hb_app s) c (hb_meter s) (hb_queue s) (hb_rx s).

(** A byte reaches transport [i]; a turn of the loop of midi_rx.c:53 or of
    comm/comm.c:98; one call of on_frame (scheduler.c:63-65). *)
Inductive hevent := HArrive (i : nat) (b : Z) | HPoll | HFrame (delta : Z).

(** Register writes and other effects of the interface, and the calls of the
    transports, each in its order. *)
Inductive hres := HbDone (s : hub) (out : list event) (tr : list cev) | HbFault (f : fault).
Definition hb_bind (x : hres) (k : hub -> hres) : hres :=
  match x with
  | HbFault f => HbFault f
  | HbDone s o n => match k s with HbFault f => HbFault f | HbDone s' o' n' => HbDone s' (o ++ o') (n ++ n') end
  end.

Definition put (q : nat -> list Z) (i : nat) (l : list Z) : nat -> list Z := fun j => if Nat.eqb j i then l else q j.

Section Hub.
Context (r : rom) (n : nat) (present : nat -> bool).

(** is_present and read_ready of every entry of commTypes. *)
Definition answers_of (q : nat -> list Z) : answers :=
  map (fun i => (present i, match q i with [] => false | _ => true end)) (seq 0 n).

(** midi_tx.c:5-15, comm/comm.c:122-127: the bytes one message sends back go out in one
    write. *)
Definition hb_reply (d : list Z) (s : hub) : hres :=
  match d with
  | [] => HbDone s [] []
  | _ => match comm_write [true] d (hb_comm s) with
         | CDone c o | CWaiting c o => HbDone (hb_set_comm s c) [] o
         | CFault f => HbFault f
         end
  end.
(** One entry of midi.c, AppModel.app_step, with what it sends back. *)
Definition hb_perform (op : aop) (s : hub) : hres :=
  match app_step r op (hb_app s) with
  | Fault f => HbFault f
  | Done _ a o => hb_bind (HbDone (mkHub a (hb_comm s) (hb_meter s) (hb_queue s) (hb_rx s)) o []) (hb_reply (WifiModel.outgoing o))
  end.
Fixpoint hb_performs (ops : list aop) (s : hub) : hres :=
  match ops with [] => HbDone s [] [] | op :: ops => hb_bind (hb_perform op s) (hb_performs ops) end.

(** comm_read, comm/comm.c:96-104 (one turn of its loop), and what midi_rx.c:95-165 does
    with the byte. *)
Definition hb_read (s : hub) : hres :=
  match comm_read [answers_of (hb_queue s)] (hb_comm s) with
  | CFault f => HbFault f
  | CWaiting c o => HbDone (hb_set_comm s c) [] o
  | CDone c o =>
      match cm_active c with
      | None => HbFault F_null
      | Some i =>
          match hb_queue s i with
          | [] => HbFault F_oob
          | b :: q =>
              match rx_byte (reset_action STARTUP_MIDI_SEQUENCE) (hb_rx s) b with
              | Failed f => HbFault f
              | Ran ms st => hb_bind (HbDone (mkHub (hb_app s) c (hb_meter s) (put (hb_queue s) i q) st) [] o) (hb_performs (map AMsg ms))
              end
          end
      end
  end.
(** midi_rx.c:53: between messages comm_read_ready is asked first. *)
Definition hb_poll (s : hub) : hres :=
  match hb_rx s with
  | None =>
      let '(ready, c, o) := read_ready (answers_of (hb_queue s)) (hb_comm s) in
      hb_bind (HbDone (hb_set_comm s c) [] o) (fun s => if ready then hb_read s else HbDone s [] [])
  | Some _ => hb_read s
  end.

(** The frame handlers wait while the reader is inside a message.  The load meter of
    ui.c reads and clears the counters of comm/comm.c. *)
Definition hb_step (e : hevent) (s : hub) : hres :=
  match e with
  | HArrive i b => HbDone (mkHub (hb_app s) (hb_comm s) (hb_meter s) (put (hb_queue s) i (hb_queue s i ++ [b])) (hb_rx s)) [] []
  | HPoll => hb_poll s
  | HFrame d =>
      match hb_rx s with
      | Some _ => HbDone s [] []
      | None => hb_bind (hb_perform AFrame s)
                  (fun s => let '((c, m), o) := load_frame d (hb_comm s, hb_meter s) in HbDone (mkHub (hb_app s) c m (hb_queue s) (hb_rx s)) [] o)
      end
  end.
Fixpoint hb_run (evs : list hevent) (s : hub) : hres :=
  match evs with [] => HbDone s [] [] | e :: evs => hb_bind (hb_step e s) (hb_run evs) end.
End Hub.

(** main.c:14-30: [a] is the interface as AppModel.app_boot leaves it; comm_init,
    comm/comm.c:63-69. *)
Definition hub_start (a : app) : hub := mkHub a comm0 meter0 (fun _ => []) None.
