(** A bounded queue that drops the oldest entry when full. *)
From Verif Require Import Base LogModel.

Definition drop_queue_add {A} (cap : nat) (q : list A) (x : A) : list A :=
  if Nat.ltb (length q) cap then q ++ [x] else tl q ++ [x].

Fixpoint dq_run (cap : nat) (q : list (Z * Z)) (ops : list lop) : list (Z * Z) * list (option (Z * Z)) :=
  match ops with
  | [] => (q, [])
  | LogAdd l t :: r => dq_run cap (drop_queue_add cap q (l, t)) r
  | LogDequeue :: r => match q with
                  | [] => let (q', xs) := dq_run cap [] r in (q', None :: xs)
                  | x :: q1 => let (q', xs) := dq_run cap q1 r in (q', Some x :: xs)
                  end
  end.
