(** Playing over one of several transports. *)
From Verif Require Import Base MidiModel MidiSpec RxModel RxSpec DevModel DevSpec AppModel AppSpec CommModel CommSpec MachineSpec HubModel HubSpec.

(** Transport [i] is the one in use; it has received the messages [l], and all have been
    read.  The others have received anything. *)
Definition read_up (r : rom) (hw : hardware) (mem : list Z) (n : nat) (present : nat -> bool) (evs : list hevent) (i : nat) (l : list msg) (s : hub) (out : list event) : Prop :=
  (exists tr, hub_running r hw mem n present evs s out tr) /\ Forall msg_ok l /\ chosen n present evs i /\ arrivals i evs = stream l /\ hb_queue s i = [].
