(** Model of comm/ring_buf.c (sequential use). *)
From Verif Require Import Base.

(** ring_buf_status_t, comm/ring_buf.h:12 *)
Inductive rb_status := RB_OK | RB_EMPTY | RB_FULL | RB_ERROR.

(** ring_buf_t, comm/ring_buf.h:14-19. [rb_buf = None] is a NULL [ringBuf]. *)
Record ring := mkRing { rb_buf : option (list Z); rb_tail : Z; rb_head : Z; rb_size : Z }.

(** The zero-initialised static object. *)
Definition ring_zero : ring := mkRing None 0 0 0.

(** ring_buf_init, comm/ring_buf.c:3-12. [arr] is the caller's array
    (None = NULL pointer). *)
Definition ring_buf_init (arr : option (list Z)) (size : Z) : M ring unit :=
  r <- get ;;
  match arr with
  | None => ret tt
  | Some a => if size <? 2 then ret tt else put (mkRing (Some a) 0 0 size)
  end.

(** ring_buf_read, comm/ring_buf.c:14-27. The result is the status and the
    byte stored through [data] when the status is OK. *)
Definition ring_buf_read : M ring (rb_status * option Z) :=
  r <- get ;;
  match rb_buf r with
  | None => ret (RB_ERROR, None)
  | Some b =>
      if rb_size r <? 2 then ret (RB_ERROR, None)
      else if rb_tail r =? rb_head r then ret (RB_EMPTY, None)
      else
        d <- rd b (rb_tail r) ;;
        put (mkRing (rb_buf r) (u16 (Z.rem (rb_tail r + 1) (rb_size r))) (rb_head r) (rb_size r)) ;;
        ret (RB_OK, Some d)
  end.

(** ring_buf_write, comm/ring_buf.c:29-43 *)
Definition ring_buf_write (data : Z) : M ring rb_status :=
  r <- get ;;
  match rb_buf r with
  | None => ret RB_ERROR
  | Some b =>
      if rb_size r <? 2 then ret RB_ERROR
      else
        let nextHead := u16 (Z.rem (rb_head r + 1) (rb_size r)) in
        if nextHead =? rb_tail r then ret RB_FULL
        else
          _ <- rd b (rb_head r) ;;   (* bounds check of the store *)
          put (mkRing (Some (zset b (rb_head r) (u8 data))) (rb_tail r) nextHead (rb_size r)) ;;
          ret RB_OK
  end.

(** ring_buf_can_read, comm/ring_buf.c:45-51 *)
Definition ring_buf_can_read (r : ring) : bool :=
  match rb_buf r with
  | None => false
  | Some _ => if rb_size r <? 2 then false else negb (rb_tail r =? rb_head r)
  end.

(** ring_buf_available, comm/ring_buf.c:53-67 (number of free bytes) *)
Definition ring_buf_available (r : ring) : Z :=
  match rb_buf r with
  | None => 0
  | Some _ =>
      if rb_size r <? 2 then 0
      else
        let capacity := u16 (rb_size r - 1) in
        if rb_tail r =? rb_head r then capacity
        else if rb_tail r <? rb_head r then u16 (capacity - (rb_head r - rb_tail r))
        else u16 (rb_tail r - rb_head r - 1)
  end.

(** ring_buf_can_write, comm/ring_buf.c:69-77 *)
Definition ring_buf_can_write (r : ring) : bool :=
  match rb_buf r with
  | None => false
  | Some _ =>
      if rb_size r <? 2 then false
      else negb (u16 (Z.rem (rb_head r + 1) (rb_size r)) =? rb_tail r)
  end.

(** Calls as one operation type, with their observable results. *)
Inductive rop := RRead | RWrite (d : Z) | RCanRead | RCanWrite | RAvail.
Inductive rres :=
| ResRead (st : rb_status) (d : option Z)
| ResWrite (st : rb_status)
| ResBool (b : bool)
| ResNum (n : Z).

Definition ring_step (o : rop) : M ring rres :=
  match o with
  | RRead => p <- ring_buf_read ;; ret (ResRead (fst p) (snd p))
  | RWrite d => st <- ring_buf_write d ;; ret (ResWrite st)
  | RCanRead => b <- gets ring_buf_can_read ;; ret (ResBool b)
  | RCanWrite => b <- gets ring_buf_can_write ;; ret (ResBool b)
  | RAvail => n <- gets ring_buf_available ;; ret (ResNum n)
  end.

Fixpoint ring_run (ops : list rop) : M ring (list rres) :=
  match ops with
  | [] => ret []
  | o :: t => x <- ring_step o ;; xs <- ring_run t ;; ret (x :: xs)
  end.
