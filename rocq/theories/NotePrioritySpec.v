(** The held-note list: oldest press first, at most ten entries. *)
From Verif Require Import Base NotePriorityModel.

Definition held_step (l : list Z) (o : nop) : list Z * nres :=
  match o with
  | NPush p => (if Nat.ltb (length l) 10 then l ++ [p] else l, NUnit)
  | NPop => (removelast l, NNote (last l 0))
  | NRemove p => (filter (fun x => negb (x =? p)) l, NUnit)
  | NCount => (l, NNum (Z.of_nat (length l)))
  | NFull => (l, NBool (Nat.eqb (length l) 10))
  end.
Fixpoint held_run (l : list Z) (ops : list nop) : list Z * list nres :=
  match ops with
  | [] => (l, [])
  | o :: t => let (l1, x) := held_step l o in
              let (l2, xs) := held_run l1 t in (l2, x :: xs)
  end.
Definition nop_wf (o : nop) : Prop :=
  match o with NPush p | NRemove p => 0 <= p < 256 | _ => True end.
