(** Transport choice and load meter, stated on what happened. *)
From Verif Require Import Base CommModel.

(** The lowest numbered transport that is present and ready. *)
Definition offers (a : answers) (i : nat) : Prop := nth i a (false, false) = (true, true).
Definition first_offer (a : answers) (i : nat) : Prop :=
  offers a i /\ forall j, (j < i)%nat -> ~ offers a j.
Definition no_offer (a : answers) : Prop := forall i, ~ offers a i.

(** The polls of a history, in order (a read stops polling once it is served,
    so these are the polls made at most). *)
Definition polls (ops : list lop) : list answers :=
  flat_map (fun op => match op with LPoll a => [a] | LRead l => l | _ => [] end) ops.

(** Transports read from and written to. *)
Definition uses (e : cev) : option nat :=
  match e with CevRead i | CevWrite i _ => Some i | _ => None end.
Definition touches (e : cev) : option nat :=
  match e with CevPoll i _ | CevRead i | CevWrite i _ => Some i | _ => None end.

(** Every read comes straight after a poll in which that transport had data. *)
Fixpoint reads_served (last : option cev) (o : list cev) : Prop :=
  match o with
  | [] => True
  | e :: t => match e with CevRead i => last = Some (CevPoll i true) | _ => True end /\ reads_served (Some e) t
  end.

Definition lop_ok (op : lop) : Prop := match op with LFrame d => 0 <= d < 65536 | _ => True end.

Definition end_state (r : lres) : option (comm * meter) :=
  match r with LDone s _ | LWaiting s _ => Some s | LFault _ => None end.
Definition events (r : lres) : list cev := match r with LDone _ o | LWaiting _ o => o | LFault _ => [] end.
