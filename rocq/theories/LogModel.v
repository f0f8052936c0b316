(** Model of log.c. A message is abstracted to (level, text id); formatting is
    not modelled. *)
From Verif Require Import Base.

Definition MAX_LOG_ENTRIES := 10.   (* log.c:3 *)

Record logst := mkLog { lg_slots : list (Z * Z); lg_read : Z; lg_write : Z; lg_count : Z }.

(** log_init, log.c:12-23 *)
Definition log_init : logst := mkLog (repeat (0, 0) 10) 0 0 0.

(** incrementReadHead, log.c:25-32 *)
Definition incrementReadHead (s : logst) : logst :=
  let r := u8 (lg_read s + 1) in
  mkLog (lg_slots s) (if r =? MAX_LOG_ENTRIES then 0 else r) (lg_write s) (u16 (lg_count s - 1)).

(** incrementWriteHead, log.c:34-44 *)
Definition incrementWriteHead (s : logst) : logst :=
  let w0 := u8 (lg_write s + 1) in
  let w := if w0 =? MAX_LOG_ENTRIES then 0 else w0 in
  let s1 := mkLog (lg_slots s) (lg_read s) w (lg_count s) in
  let s2 := if w =? lg_read s1 then incrementReadHead s1 else s1 in
  mkLog (lg_slots s2) (lg_read s2) (lg_write s2) (u16 (lg_count s2 + 1)).

(** log, log.c:46-53: the slot is chosen before the write head moves. *)
Definition log_add (level text : Z) : M logst unit :=
  s <- get ;;
  _ <- rd (lg_slots s) (lg_write s) ;;
  let w := lg_write s in
  let s' := incrementWriteHead s in
  put (mkLog (zset (lg_slots s') w (level, text)) (lg_read s') (lg_write s') (lg_count s')).

(** log_dequeue, log.c:71-79. The returned pointer is modelled by the slot
    content at the time of the call (the UI prints it before the next log call
    of the main loop; see ui.c:190-215). *)
Definition log_dequeue : M logst (option (Z * Z)) :=
  s <- get ;;
  if lg_count s =? 0 then ret None
  else
    x <- rd (lg_slots s) (lg_read s) ;;
    put (incrementReadHead s) ;;
    ret (Some x).

Inductive lop := LogAdd (level text : Z) | LogDequeue.
Definition log_step (o : lop) : M logst (option (option (Z * Z))) :=
  match o with
  | LogAdd l t => log_add l t ;; ret None
  | LogDequeue => x <- log_dequeue ;; ret (Some x)
  end.
Fixpoint log_run (ops : list lop) : M logst (list (option (Z * Z))) :=
  match ops with
  | [] => ret []
  | o :: t => x <- log_step o ;; xs <- log_run t ;;
              ret (match x with Some r => r :: xs | None => xs end)
  end.
