(** Playing over the network. *)
From Verif Require Import Base MidiModel MidiSpec DevModel DevSpec AppModel AppSpec NetModel WifiModel WifiSpec.

(** The packets and frames [evs], since power-on, ask for [ops]; [a] is the state of the
    interface and [out] everything written to the chips. *)
Definition played (r : rom) (hw : hardware) (mem : list Z) (evs : list wevent) (ops : list aop) (a : app) (out : list event) : Prop :=
  exists s radio, on_air r hw mem evs s out radio /\ asks false evs ops /\ w_app s = a.
