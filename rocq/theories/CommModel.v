(** Model of src/comm/comm.c and of the load meter of src/ui.c. *)
From Verif Require Import Base.

(** What each entry of commTypes (comm.c:43-57) answers at one poll: is it
    present, has it a byte ready. *)
Definition answers := list (bool * bool).

(** What the functions of comm.c call in the transports. *)
Inductive cev : Type :=
| CevPoll (i : nat) (ready : bool)
| CevRead (i : nat)
| CevWrite (i : nat) (data : list Z)
| CevShow (percent : Z).

(** comm.c:9-13, 61 *)
Record comm := mkComm { cm_active : option nat; cm_idle : Z; cm_reads : Z }.
Definition MAX_COMM_IDLE : Z := 0x28F.
Definition MAX_COMM_BUSY : Z := 0x28F.
(** comm.c:63-69 (the counters are static initialisers) *)
Definition comm0 : comm := mkComm None 0 0.

(** comm.c:146-149 *)
Definition counts_in_bounds (c : comm) : bool :=
  negb (cm_idle c =? MAX_COMM_IDLE) && negb (cm_reads c =? MAX_COMM_BUSY).

(** comm.c:74-79: the scan from entry [i]. *)
Fixpoint scan (i : nat) (a : answers) : option nat * list cev :=
  match a with
  | [] => (None, [])
  | (present, ready) :: t =>
      if present then
        if ready then (Some i, [CevPoll i true])
        else let (r, o) := scan (S i) t in (r, CevPoll i false :: o)
      else scan (S i) t
  end.

(** comm.c:71-94 *)
Definition read_ready (a : answers) (c : comm) : bool * comm * list cev :=
  match cm_active c with
  | None =>
      match scan 0 a with
      | (Some i, o) => (true, mkComm (Some i) (cm_idle c) (cm_reads c), o)
      | (None, o) => (false, c, o)
      end
  | Some i =>
      if snd (nth i a (false, false)) then (true, c, [CevPoll i true])
      else (false,
            if counts_in_bounds c then mkComm (Some i) (u16 (cm_idle c + 1)) (cm_reads c) else c,
            [CevPoll i false])
  end.

Inductive cres : Type :=
| CDone (c : comm) (o : list cev)
| CWaiting (c : comm) (o : list cev)
| CFault (f : fault).

(** comm.c:96-104; one answer per turn of the loop, waiting if they run out. *)
Fixpoint comm_read (l : list answers) (c : comm) : cres :=
  match l with
  | [] => CWaiting c []
  | a :: t =>
      match read_ready a c with
      | (true, c1, o) =>
          let c2 := if counts_in_bounds c1 then mkComm (cm_active c1) (cm_idle c1) (u16 (cm_reads c1 + 1)) else c1 in
          match cm_active c2 with
          | Some i => CDone c2 (o ++ [CevRead i])
          | None => CFault F_null
          end
      | (false, c1, o) =>
          match comm_read t c1 with
          | CDone c2 o2 => CDone c2 (o ++ o2)
          | CWaiting c2 o2 => CWaiting c2 (o ++ o2)
          | CFault f => CFault f
          end
      end
  end.

(** comm.c:122-127; [w]: the answers of write_ready. *)
Definition comm_write (w : list bool) (data : list Z) (c : comm) : cres :=
  match cm_active c with
  | None => CFault F_null
  | Some i => if existsb id w then CDone c [CevWrite i data] else CWaiting c []
  end.

(** comm.c:116-120 *)
Definition comm_reset_counts (c : comm) : comm := mkComm (cm_active c) 0 0.

(** ** The load meter *)
(** ui.c:114, 307, 314 *)
Record meter := mkMeter { lm_sum : Z; lm_calc : Z; lm_load : Z }.
Definition meter0 : meter := mkMeter 0 0 0.
(** ui.c:47-48 *)
Definition FRAMES_BEFORE_UPDATE_LOAD : Z := 15.
Definition FRAMES_BEFORE_UPDATE_LOAD_PERCENT : Z := 15.

(** ui.c:325-333 *)
Definition load_percent (c : comm) : Z :=
  if (cm_idle c =? 0) && (cm_reads c =? 0) then 0
  else u16 (cm_reads c * 100 / (cm_idle c + cm_reads c)).

(** ui.c:307-319 and 513-530: the load part of the frame handler.  [CevShow] is
    the percentage the LEDs and the text are drawn from. *)
Definition load_frame (delta : Z) (s : comm * meter) : (comm * meter) * list cev :=
  let (c, m) := s in
  let calc := u16 (lm_calc m + delta) in
  let '(sum, calc) :=
    if FRAMES_BEFORE_UPDATE_LOAD_PERCENT <=? calc then (u16 (lm_sum m + load_percent c), 0)
    else (lm_sum m, calc) in
  let load := u16 (lm_load m + delta) in
  if FRAMES_BEFORE_UPDATE_LOAD <=? load then
    let percent := sum / (FRAMES_BEFORE_UPDATE_LOAD / FRAMES_BEFORE_UPDATE_LOAD_PERCENT) in
    ((comm_reset_counts c, mkMeter 0 calc 0), [CevShow percent])
  else ((c, mkMeter sum calc load), []).

(** ui.c:518-524: how many of the four LEDs are lit. *)
Definition leds_lit (percent : Z) : Z :=
  let level := if percent =? 0 then 0 else percent / (100 / 4) + 1 in
  Z.min level 4.
(** ui.c:503-508 *)
Definition load_text (percent : Z) : Z := if 99 <? percent then 99 else percent.

(** ** Histories *)
Inductive lop : Type :=
| LPoll (a : answers)
| LRead (l : list answers)
| LWrite (w : list bool) (data : list Z)
| LFrame (delta : Z).

Inductive lres : Type :=
| LDone (s : comm * meter) (o : list cev)
| LWaiting (s : comm * meter) (o : list cev)
| LFault (f : fault).

Definition of_comm (m : meter) (r : cres) : lres :=
  match r with CDone c o => LDone (c, m) o | CWaiting c o => LWaiting (c, m) o | CFault f => LFault f end.

Definition load_step (op : lop) (s : comm * meter) : lres :=
  match op with
  | LPoll a => let '(_, c, o) := read_ready a (fst s) in LDone (c, snd s) o
  | LRead l => of_comm (snd s) (comm_read l (fst s))
  | LWrite w data => of_comm (snd s) (comm_write w data (fst s))
  | LFrame delta => let (s', o) := load_frame delta s in LDone s' o
  end.
Fixpoint load_run (ops : list lop) (s : comm * meter) : lres :=
  match ops with
  | [] => LDone s []
  | op :: t =>
      match load_step op s with
      | LDone s1 o1 =>
          match load_run t s1 with
          | LDone s2 o2 => LDone s2 (o1 ++ o2)
          | LWaiting s2 o2 => LWaiting s2 (o1 ++ o2)
          | LFault f => LFault f
          end
      | r => r
      end
  end.
