(** Arrival schedules. *)
From Verif Require Import Base RxModel RxSpec SerialModel.

Definition arrivals (evs : list sev) : list Z :=
  flat_map (fun e => match e with SArrive b => [b] | SPoll => [] end) evs.
(** Bytes waiting after an event, and the condition that the backlog never
    exceeds [cap]. *)
Definition backlog_step (n : nat) (e : sev) : nat := match e with SArrive _ => S n | SPoll => pred n end.
Fixpoint backlog_within (cap n : nat) (evs : list sev) : Prop :=
  match evs with
  | [] => True
  | e :: t => (backlog_step n e <= cap)%nat /\ backlog_within cap (backlog_step n e) t
  end.
Definition byte_ok (b : Z) : Prop := 0 <= b < 256.
