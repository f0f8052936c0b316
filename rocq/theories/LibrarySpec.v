(** Instruments kept for programs, as an editor on the host sees them: what it
    sends, and what it is sent back. *)
From Verif Require Import Base SynthModel MidiModel DevSpec.
From Verif Require Import MidiSpec.

(** A program's (or channel's) instrument as system exclusive data: kind FM, the
    program or channel, algorithm, feedback, AMS, FMS, then the four operators. *)
Definition preset_data (of : Z) (p : preset) : list Z :=
  [0; of; p_alg p; p_fb p; p_ams p; p_fms p] ++ flat_map operator_bytes (p_ops p).

(** Messages of the host. *)
Definition store_msg (n : Z) (p : preset) : mop := own_sysex 10 (preset_data n p).
Definition clear_msg (n : Z) : mop := own_sysex 11 [0; n].
Definition clear_all_msg : mop := own_sysex 12 [0].
Definition dump_msg (n : Z) : mop := own_sysex 13 [0; n].
Definition dump_chan_msg (c : Z) : mop := own_sysex 15 [0; c].
(** An answer of the interface: a system exclusive message of its own. *)
Definition reply (cmd : Z) (data : list Z) : list event := map EvTx ([0xF0; 0x00; 0x22; 0x77; cmd] ++ data ++ [0xF7]).

(** Messages that say something about program [n]'s instrument: a System Reset,
    controller 87 (keep the channel's sound as program [n]), and the stores and
    clears for it. *)
Definition rewrites (n : Z) (m : mop) : Prop :=
  m = MReset \/ (exists c, m = MCc c 87 n) \/ (exists l, m = own_sysex 10 (0 :: n :: l)) \/ m = clear_msg n \/ m = clear_all_msg.
(** Messages that bring back program [n]'s factory instrument. *)
Definition restores (n : Z) (m : mop) : Prop := m = MReset \/ m = clear_msg n \/ m = clear_all_msg.

(** Device channel [i] is the first that serves MIDI channel [c]: the one controller
    87 and channel dumps look at. *)
Definition first_serves (s : midi) (c i : Z) (d : dev) : Prop := serves s c i d /\ forall j e, serves s c j e -> i <= j.
