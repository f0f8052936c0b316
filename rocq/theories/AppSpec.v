(** What users of the whole interface rely on: power-on and any history of
    received messages and frames, seen from the two sound chips and the host. *)
From Verif Require Import Base SynthModel PsgModel MidiModel DevModel DevSpec AppModel.
From Verif Require SynthSpec PsgSpec SramSpec MidiSpec.

(** A well-formed message or a frame. *)
Definition aop_ok (op : aop) : Prop := match op with AMsg m => MidiSpec.mop_ok m | AFrame => True end.
(** SRAM of at least the size the interface uses, holding any bytes. *)
Definition mem_ok (mem : list Z) : Prop := (4640 <= length mem)%nat /\ Forall SramSpec.is_byte mem.

(** [s] is the state and [tr] all events after power-on and the history [ops]. *)
Definition history (r : rom) (hw : hardware) (mem : list Z) (ops : list aop) (s : app) (tr : list event) : Prop :=
  rom_ok r /\ mem_ok mem /\ Forall aop_ok ops /\ app_boot r hw mem ops = Done tt s tr.

(** Messages of a history; a frame ticks the MIDI layer. *)
Definition message (op : aop) : mop := match op with AMsg m => m | AFrame => MTick end.
Definition sent_reset (ops : list aop) : Prop := In (AMsg MReset) ops.

(** A message some of whose calls need a sample number beyond the table. *)
Definition missing_sample (op : mop) (s : midi) : Prop :=
  exists s' o, midi_step op s = WDone s' o /\ Exists beyond_samples o.

(** Everything below the MIDI layer is in order. *)
Definition app_ok (s : app) : Prop := MidiSpec.midi_ok (a_midi s) /\ sound_ok (a_dev s).

(** Histories without certain messages. *)
Definition without (P : mop -> Prop) (ops : list aop) : Prop := forall m, In (AMsg m) ops -> ~ P m.
(** Raw register writes (SysEx commands 8 and 9). *)
Definition raw_write (m : mop) : Prop := MidiSpec.is_sysex_cmd 8 m \/ MidiSpec.is_sysex_cmd 9 m.
(** Messages that store a preset: controller 87 and SysEx command 10. *)
Definition stores (m : mop) : Prop := MidiSpec.is_cc 87 m \/ MidiSpec.is_sysex_cmd 10 m.
Definition resets (m : mop) : Prop := m = MReset.

(** What a run shows to the outside: everything it writes, or the fault it stops
    at. *)
Definition answer (x : res app unit) : list event + fault := match x with Done _ _ o => inl o | Fault f => inr f end.
(** Registration of a change callback: an API call of the user interface, not a
    received message. *)
Definition registers (m : mop) : Prop := exists b, m = MCallback b.
