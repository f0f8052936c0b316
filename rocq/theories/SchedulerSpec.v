(** What a user can count: vertical blanks, and the deltas given to a handler. *)
From Verif Require Import Base SchedulerModel.

Definition vsyncs (tr : list sobs) : Z :=
  fold_right (fun o n => match o with OVsync _ => 1 + n | _ => n end) 0 tr.
(** Vertical blanks that fall while the frame handlers are running. *)
Definition vsyncs_inside (tr : list sobs) : Z :=
  fold_right (fun o n => match o with OVsync true => 1 + n | _ => n end) 0 tr.
(** Sum of the deltas handed to handler [h]. *)
Definition delivered_to (h : nat) (tr : list sobs) : Z :=
  fold_right (fun o n => match o with OCall i d => if Nat.eqb i h then d + n else n | _ => n end) 0 tr.
(** The calls, in order. *)
Definition calls (tr : list sobs) : list nat :=
  flat_map (fun o => match o with OCall i _ => [i] | _ => [] end) tr.

(** [l] is whole rounds 0,1,..,n-1 followed by the beginning [0..k-1] of one. *)
Definition rounds (n : nat) (l : list nat) : Prop :=
  exists r k, l = concat (repeat (seq 0 n) r) ++ seq 0 k /\ (k <= n)%nat.
