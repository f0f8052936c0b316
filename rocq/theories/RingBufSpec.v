(** Specification of a bounded FIFO queue, independent of the ring layout. *)
From Verif Require Import Base RingBufModel.

(** The abstract state is the list of queued bytes, oldest first, and the
    capacity. *)
Definition fifo_step (cap : nat) (q : list Z) (o : rop) : list Z * rres :=
  match o with
  | RRead => match q with
             | [] => ([], ResRead RB_EMPTY None)
             | x :: t => (t, ResRead RB_OK (Some x))
             end
  | RWrite d => if Nat.ltb (length q) cap then (q ++ [d], ResWrite RB_OK)
                else (q, ResWrite RB_FULL)
  | RCanRead => (q, ResBool (match q with [] => false | _ => true end))
  | RCanWrite => (q, ResBool (Nat.ltb (length q) cap))
  | RAvail => (q, ResNum (Z.of_nat (cap - length q)))
  end.

Fixpoint fifo_run (cap : nat) (q : list Z) (ops : list rop) : list Z * list rres :=
  match ops with
  | [] => (q, [])
  | o :: t => let (q1, x) := fifo_step cap q o in
              let (q2, xs) := fifo_run cap q1 t in (q2, x :: xs)
  end.

Definition is_byte (d : Z) : Prop := 0 <= d < 256.
Definition rop_wf (o : rop) : Prop := match o with RWrite d => is_byte d | _ => True end.
