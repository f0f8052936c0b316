(** C45, C73: instruments kept for programs, as an editor on the host sees them.

    [store_msg], [clear_msg], [dump_msg] ... are the messages the host sends, [reply]
    what it is sent back, [preset_data n p] instrument [p] as the data of either
    (LibrarySpec); [rewrites n] are the messages that say something about program
    [n]'s instrument; [plays_preset] reads an FM channel's instrument off the chip's
    registers (SoundSpec). *)
From Coq Require Import ZArith List Bool Lia.
From Verif Require Import Base SynthModel SynthSpec MidiModel MidiSpec DevModel DevSpec AppModel AppSpec SoundSpec AppExampleProofs LibrarySpec LibraryProofs LibraryExampleProofs.
Import ListNotations.
Open Scope Z_scope.

(** ** C45: stored instruments are dumped back exactly *)

(** However long ago it was stored, and whatever came before and since, a program's
    instrument is dumped with the bytes it was stored with, unless a message since
    concerned that program.  The dump changes nothing. *)
Theorem C45_store_dump : forall r hw mem before n p later s tr,
  DevSpec.seven n -> preset_ok p -> without (rewrites n) later ->
  history r hw mem (before ++ AMsg (store_msg n p) :: later) s tr ->
  history r hw mem ((before ++ AMsg (store_msg n p) :: later) ++ [AMsg (dump_msg n)]) s (tr ++ reply 0x0E (preset_data n p)).
Proof. exact stored_dumped. Qed.
Print Assumptions C45_store_dump.
Example C45_store_dump_nonvacuous : preset_ok example_preset /\ without (rewrites 40) meanwhile /\
  (exists s tr, history (shipped false) no_cartridge blank_memory editing s tr) /\
  preset_data 40 example_preset <> preset_data 40 (nth 40 (rom_presets (shipped false)) no_preset).
Proof. exact c45_example. Qed.

(** A dump made on one machine, sent to another (command 0x0A instead of 0x0E), is
    dumped there with the same bytes. *)
Theorem C45_dump_store : forall r hw mem r' hw' mem' ops s tr n before later s' tr',
  DevSpec.seven n -> without (rewrites n) later -> history r hw mem ops s tr ->
  exists data, history r hw mem (ops ++ [AMsg (dump_msg n)]) s (tr ++ reply 0x0E data) /\ mop_ok (own_sysex 0x0A data) /\
    (history r' hw' mem' (before ++ AMsg (own_sysex 0x0A data) :: later) s' tr' ->
     history r' hw' mem' ((before ++ AMsg (own_sysex 0x0A data) :: later) ++ [AMsg (dump_msg n)]) s' (tr' ++ reply 0x0E data)).
Proof. exact resent. Qed.
Print Assumptions C45_dump_store.

(** Clearing the program, clearing all and a System Reset bring back the factory's
    instrument, until a later message concerns the program ... *)
Theorem C45_clear_dump : forall r hw mem before n m later s tr,
  DevSpec.seven n -> restores n m -> without (rewrites n) later ->
  history r hw mem (before ++ AMsg m :: later) s tr ->
  history r hw mem ((before ++ AMsg m :: later) ++ [AMsg (dump_msg n)]) s
    (tr ++ reply 0x0E (preset_data n (nth (Z.to_nat n) (rom_presets r) no_preset))).
Proof. exact restored_dumped. Qed.
Print Assumptions C45_clear_dump.
Example C45_clear_dump_nonvacuous : restores 40 (clear_msg 40) /\ restores 40 clear_all_msg /\ restores 40 MReset /\ without (rewrites 40) meanwhile /\
  exists s tr, history (shipped false) no_cartridge blank_memory (editing ++ AMsg (clear_msg 40) :: meanwhile) s tr.
Proof. exact c45_clear_example. Qed.
(** ... and it is what a program has that no message concerned. *)
Theorem C45_factory_dump : forall r hw mem n ops s tr,
  DevSpec.seven n -> without (rewrites n) ops -> history r hw mem ops s tr ->
  history r hw mem (ops ++ [AMsg (dump_msg n)]) s (tr ++ reply 0x0E (preset_data n (nth (Z.to_nat n) (rom_presets r) no_preset))).
Proof. exact factory_dumped. Qed.
Print Assumptions C45_factory_dump.
Example C45_factory_dump_nonvacuous : without (rewrites 40) meanwhile.
Proof. exact meanwhile_without. Qed.

(** Controller 87 keeps the sound of a channel as a program: what a channel dump sent
    at the time, and what the chip was set to, is what a dump of the program sends
    later.  The channel is that of the first device channel serving it ... *)
Theorem C45_keep_dump : forall r hw mem ops s tr c i d n,
  history r hw mem ops s tr -> is_chan c -> DevSpec.seven n -> first_serves (a_midi s) c i d -> d_ops d = VFm ->
  exists p, history r hw mem (ops ++ [AMsg (dump_chan_msg c)]) s (tr ++ reply 0x10 (preset_data c p)) /\
    (without raw_write ops -> plays_preset (ym_regs tr) i p) /\
    forall later s' tr', without (rewrites n) later -> history r hw mem (ops ++ AMsg (MCc c 87 n) :: later) s' tr' ->
      history r hw mem ((ops ++ AMsg (MCc c 87 n) :: later) ++ [AMsg (dump_msg n)]) s' (tr' ++ reply 0x0E (preset_data n p)).
Proof. exact sound_kept. Qed.
Print Assumptions C45_keep_dump.
(** ... in static mode, FM channel [c] for MIDI channel [c]. *)
Theorem C45_keep_dump_static : forall r hw mem ops s tr c n,
  history r hw mem ops s tr -> without remaps ops -> 0 <= c < 6 -> c < 5 \/ without (is_cc 78) ops -> DevSpec.seven n ->
  exists p, history r hw mem (ops ++ [AMsg (dump_chan_msg c)]) s (tr ++ reply 0x10 (preset_data c p)) /\
    (without raw_write ops -> plays_preset (ym_regs tr) c p) /\
    forall later s' tr', without (rewrites n) later -> history r hw mem (ops ++ AMsg (MCc c 87 n) :: later) s' tr' ->
      history r hw mem ((ops ++ AMsg (MCc c 87 n) :: later) ++ [AMsg (dump_msg n)]) s' (tr' ++ reply 0x0E (preset_data n p)).
Proof. exact sound_kept_static. Qed.
Print Assumptions C45_keep_dump_static.
Example C45_keep_nonvacuous : without remaps edited /\ without (is_cc 78) edited /\ without raw_write edited /\ without (rewrites 40) meanwhile /\
  (exists s tr, history (shipped false) no_cartridge blank_memory edited s tr /\ chip_alg (ym_regs tr) 3 = Some 7) /\
  exists s tr, history (shipped false) no_cartridge blank_memory (edited ++ AMsg (MCc 3 87 40) :: meanwhile) s tr.
Proof. exact c45_keep_example. Qed.

(** ** C73: a channel plays the instrument stored for the program it selects *)

(** If the channel was at another program before.  Missing: a channel that was at the
    program already - refuted below - and raw register writes (SysEx 8 and 9). *)
Theorem C73_selected_partial : forall r hw mem before n p later c k s tr i d,
  DevSpec.seven n -> preset_ok p -> k <> n -> without (rewrites n) later -> without raw_write (before ++ later) ->
  history r hw mem (before ++ AMsg (store_msg n p) :: later ++ [AMsg (MProgram c k); AMsg (MProgram c n)]) s tr ->
  serves (a_midi s) c i d -> d_ops d = VFm -> plays_preset (ym_regs tr) i p.
Proof. exact stored_played. Qed.
Print Assumptions C73_selected_partial.
Example C73_selected_nonvacuous : preset_ok example_preset /\ without (rewrites 40) meanwhile /\ without raw_write ([AMsg (MCc 0 7 90)] ++ meanwhile) /\
  exists s tr d, history (shipped false) no_cartridge blank_memory selecting s tr /\ serves (a_midi s) 3 3 d /\ d_ops d = VFm.
Proof. exact c73_example. Qed.
(** An instrument is stored for program 0, and dumped back; a channel that then
    selects program 0 plays another. *)
Theorem C73_reselect_refuted : without raw_write reselecting /\ preset_ok example_preset /\
  exists s tr, history (shipped false) no_cartridge blank_memory reselecting s tr /\
    history (shipped false) no_cartridge blank_memory (reselecting ++ [AMsg (dump_msg 0)]) s (tr ++ reply 0x0E (preset_data 0 example_preset)) /\
    ~ plays_preset (ym_regs tr) 3 example_preset /\ chip_alg (ym_regs tr) 3 <> Some 5.
Proof. exact c73_reselect. Qed.
Print Assumptions C73_reselect_refuted.
