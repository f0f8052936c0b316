(** Property C49: a System Reset returns the instrument to its power-on
    behaviour. *)
From Verif Require Import Base SynthModel PsgModel MidiModel DevModel AppModel AppSpec AppExampleProofs ResetProofs ResetExampleProofs.

(** After a System Reset — whatever was received before it, on whatever cartridge
    memory — every later sequence of messages and frames is answered with exactly
    the writes to the chips, the bus and the host that the same sequence gets
    right after power-on (or with the same fault). The only thing excluded before
    the reset is the registration of a change callback, which is not a message. *)
Theorem C49_reset_like_power_on : forall r hw mem before s tr hw' mem' s0 tr0 later,
  history r hw mem (before ++ [AMsg MReset]) s tr -> without registers before ->
  history r hw' mem' [] s0 tr0 -> Forall aop_ok later ->
  answer (app_run r later s) = answer (app_run r later s0).
Proof. exact reset_same_answers. Qed.
Print Assumptions C49_reset_like_power_on.
(** Controllers, a stored instrument, drums on the DAC, a remapping and sounding
    notes: without the reset the same later messages cause 134 writes, with it 41. *)
Example C49_reset_like_power_on_nonvacuous :
  without registers eventful /\ Forall aop_ok test_notes /\
  (exists s tr, history (shipped false) no_cartridge blank_memory eventful s tr /\ answered (app_run (shipped false) test_notes s) = 134%nat) /\
  (exists s tr, history (shipped false) no_cartridge blank_memory (eventful ++ [AMsg MReset]) s tr /\ answered (app_run (shipped false) test_notes s) = 41%nat) /\
  (exists s tr, history (shipped false) no_cartridge blank_memory [] s tr).
Proof. exact c49_example. Qed.
