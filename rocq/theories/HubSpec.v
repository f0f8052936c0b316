(** What reaches the interface through its transports, and through which of them. *)
From Verif Require Import Base MidiModel MidiSpec RxModel RxSpec DevModel DevSpec AppModel AppSpec CommModel CommSpec MachineSpec HubModel.

(** Bytes received by transport [i], and frames, so far. *)
Definition arrivals (i : nat) (evs : list hevent) : list Z :=
  flat_map (fun e => match e with HArrive j b => if Nat.eqb j i then [b] else [] | _ => [] end) evs.
Fixpoint shown (evs : list hevent) : Z :=
  match evs with [] => 0 | HFrame _ :: t => 1 + shown t | _ :: t => shown t end.

(** Transport [i] is one of the [n], is there, and has received something. *)
Definition has_data (n : nat) (present : nat -> bool) (i : nat) (evs : list hevent) : Prop :=
  (i < n)%nat /\ present i = true /\ arrivals i evs <> [].
(** At the first poll that found data anywhere, [i] was the first transport that had
    some. *)
Definition chosen (n : nat) (present : nat -> bool) (evs : list hevent) (i : nat) : Prop :=
  exists pre post, evs = pre ++ HPoll :: post /\ has_data n present i pre /\
    (forall j, (j < i)%nat -> ~ has_data n present j pre) /\
    (forall pre' post', pre = pre' ++ HPoll :: post' -> forall j, ~ has_data n present j pre').

(** [s] is the state, [out] everything the interface wrote and [tr] all calls of its [n]
    transports after power-on and [evs]. *)
Definition hub_running (r : rom) (hw : hardware) (mem : list Z) (n : nat) (present : nat -> bool) (evs : list hevent) (s : hub) (out : list event) (tr : list cev) : Prop :=
  rom_ok r /\ mem_ok mem /\
  exists a o1 o2, app_boot r hw mem [] = Done tt a o1 /\ hb_run r n present evs (hub_start a) = HbDone s o2 tr /\ out = o1 ++ o2.
(** What the transport in use receives begins a list of messages [l]. *)
Definition brings_in (n : nat) (present : nat -> bool) (evs : list hevent) (l : list msg) : Prop :=
  Forall msg_ok l /\ forall i, chosen n present evs i -> exists rest, arrivals i evs ++ rest = stream l.

(** What was written to transport [i], write by write, and how often it was read. *)
Definition writes_to (i : nat) (tr : list cev) : list (list Z) :=
  flat_map (fun e => match e with CevWrite j d => if Nat.eqb j i then [d] else [] | _ => [] end) tr.
Definition reads_of (i : nat) (tr : list cev) : nat :=
  length (filter (fun e => match e with CevRead j => Nat.eqb j i | _ => false end) tr).
