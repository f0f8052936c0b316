(** Model of note_priority.c *)
From Verif Require Import Base.

Definition NOTE_PRIORITY_LENGTH := 10.   (* note_priority.h:4 *)

(** NotePriorityStack, note_priority.h:6-9: u8 slot[10], s16 top. *)
Record npstack := mkNp { np_slot : list Z; np_top : Z }.

(** note_priority_init, note_priority.c:3-7 *)
Definition note_priority_init : npstack := mkNp (repeat 0 10) (-1).

(** note_priority_push, note_priority.c:11-17 *)
Definition note_priority_push (pitch : Z) : M npstack unit :=
  s <- get ;;
  if np_top s =? NOTE_PRIORITY_LENGTH - 1 then ret tt
  else
    let top' := s16 (np_top s + 1) in
    _ <- rd (np_slot s) top' ;;            (* bounds check of the store *)
    put (mkNp (zset (np_slot s) top' (u8 pitch)) top').

(** note_priority_pop, note_priority.c:19-26 *)
Definition note_priority_pop : M npstack Z :=
  s <- get ;;
  if np_top s =? -1 then ret 0
  else
    x <- rd (np_slot s) (np_top s) ;;
    put (mkNp (np_slot s) (s16 (np_top s - 1))) ;;
    ret x.

(** Loop of note_priority_remove, note_priority.c:31-38; [w] is writeCursor
    (s16) and the loop visits the indices in [is]. *)
Fixpoint np_remove_loop (pitch : Z) (is : list Z) (w : Z) : M npstack Z :=
  match is with
  | [] => ret w
  | i :: t =>
      s <- get ;;
      item <- rd (np_slot s) i ;;
      if item =? pitch then np_remove_loop pitch t w
      else
        let w' := s16 (w + 1) in
        _ <- rd (np_slot s) w' ;;
        put (mkNp (zset (np_slot s) w' item) (np_top s)) ;;
        np_remove_loop pitch t w'
  end.

(** note_priority_remove, note_priority.c:28-40. The loop bound [top] is not
    changed inside the loop. [i <= top] compares as int, so [top = -1] gives no
    iteration. *)
Definition note_priority_remove (pitch : Z) : M npstack unit :=
  s <- get ;;
  w <- np_remove_loop pitch (zseq 0 (Z.to_nat (np_top s + 1))) (-1) ;;
  s' <- get ;;
  put (mkNp (np_slot s') w).

(** note_priority_isFull, note_priority.c:42-45 *)
Definition note_priority_isFull (s : npstack) : bool := np_top s =? NOTE_PRIORITY_LENGTH - 1.

(** note_priority_count, note_priority.c:47-50 *)
Definition note_priority_count (s : npstack) : Z := u8 (np_top s + 1).

(** Calls as one operation type, with their observable results. *)
Inductive nop := NPush (p : Z) | NPop | NRemove (p : Z) | NCount | NFull.
Inductive nres := NUnit | NNote (p : Z) | NNum (n : Z) | NBool (b : bool).

Definition np_step (o : nop) : M npstack nres :=
  match o with
  | NPush p => note_priority_push p ;; ret NUnit
  | NPop => p <- note_priority_pop ;; ret (NNote p)
  | NRemove p => note_priority_remove p ;; ret NUnit
  | NCount => n <- gets note_priority_count ;; ret (NNum n)
  | NFull => b <- gets note_priority_isFull ;; ret (NBool b)
  end.
Fixpoint np_run (ops : list nop) : M npstack (list nres) :=
  match ops with
  | [] => ret []
  | o :: t => x <- np_step o ;; xs <- np_run t ;; ret (x :: xs)
  end.
