(** Property theorems about presets in cartridge SRAM (C17-C19, C21, C23). *)
From Verif Require Import Base SynthModel SynthSpec CrcSpec SramModel SramSpec SramProofs.

Theorem C17_round_trip : forall s n p,
  sram_ok s -> sr_present s = true -> is_program n -> preset_ok p ->
  exists s' o, sram_save_preset n p s = Done tt s' o /\ loads s' n (Some p).
Proof. exact c17. Qed.
Print Assumptions C17_round_trip.
Example C17_nonvacuous : sram_ok blank /\ sr_present blank = true /\ is_program 127 /\ preset_ok (demo_preset 4).
Proof. split; [exact blank_ok|]. split; [reflexivity|]. split; [unfold is_program; lia|exact demo_preset_ok]. Qed.

Theorem C18_map : forall ops s (t : table),
  sram_ok s -> sr_present s = true -> Forall rop_ok ops ->
  (forall n, is_program n -> loads s n (t n)) ->
  exists s' o, sram_run ops s = Done tt s' o /\
    forall n, is_program n -> loads s' n (fold_left table_step ops t n).
Proof. exact c18. Qed.
Print Assumptions C18_map.
(** The initial table always exists. *)
Theorem C18_initial : forall s n,
  sram_ok s -> sr_present s = true -> is_program n -> exists r, loads s n r.
Proof. exact loads_some. Qed.
Print Assumptions C18_initial.
Example C18_nonvacuous :
  (forall n, is_program n -> loads blank n None) /\
  fold_left table_step [RSave 3 (demo_preset 4); RSave 4 torn_old; RClear 3; RSave 5 torn_new; RSave 4 torn_new]
    (fun _ => None) 4 = Some torn_new.
Proof. split; [exact blank_loads|reflexivity]. Qed.

Theorem C19_burst_rejected : forall s s' n p e,
  sram_ok s -> sram_ok s' -> sr_present s = true -> sr_present s' = true -> is_program n ->
  loads s n (Some p) ->
  length e = 36%nat -> Forall is_byte e -> burst16 (msg_bits e) ->
  slot_at s' n = xor_bytes (slot_at s n) e -> loads s' n None.
Proof. exact c19. Qed.
Print Assumptions C19_burst_rejected.
Example C19_nonvacuous :
  let s := saved blank 5 torn_old in
  sram_ok s /\ loads s 5 (Some torn_old) /\
  burst16 (msg_bits (repeat 0 10 ++ [0x80; 0x01] ++ repeat 0 24)).
Proof. exact c19_example. Qed.

(** Power loss.  The claim as stated is false for a save: a torn image can carry
    a matching checksum. *)
Theorem C21_refuted :
  ~ (forall s op s' o o1 o2 old,
       sram_ok s -> sr_present s = true -> rop_ok op -> sram_step op s = Done tt s' o -> o = o1 ++ o2 ->
       loads s (op_program op) old ->
       let cut := restarted s (memory_after (sr_mem s) o1) in
       loads cut (op_program op) old \/ loads cut (op_program op) None \/
       (exists p, op = RSave (op_program op) p /\ loads cut (op_program op) (Some p))).
Proof. exact c21_refuted. Qed.
Print Assumptions C21_refuted.
(** Every other program is unharmed, wherever the power is cut. *)
Theorem C21_other_programs : forall s op s' o o1 o2 n,
  sram_ok s -> sr_present s = true -> rop_ok op -> sram_step op s = Done tt s' o -> o = o1 ++ o2 ->
  is_program n -> n <> op_program op ->
  forall r, loads s n r -> loads (restarted s (memory_after (sr_mem s) o1)) n r.
Proof. exact c21_others. Qed.
Print Assumptions C21_other_programs.
(** A clear is atomic. *)
Theorem C21_clear_atomic_partial : forall s n s' o o1 o2,
  sram_ok s -> sr_present s = true -> is_program n -> sram_clear_preset n s = Done tt s' o -> o = o1 ++ o2 ->
  forall r, loads s n r ->
    loads (restarted s (memory_after (sr_mem s) o1)) n r \/
    loads (restarted s (memory_after (sr_mem s) o1)) n None.
Proof. exact c21_clear. Qed.
Print Assumptions C21_clear_atomic_partial.
(** Saving a preset over one that differs in a single parameter is atomic.
    Missing: saves that change several parameters. *)
Theorem C21_edit_atomic_partial : forall s n p q s1 o1 s2 o2 oa ob,
  sram_ok s -> sr_present s = true -> is_program n -> preset_ok p -> preset_ok q ->
  one_parameter_differs p q ->
  sram_save_preset n p s = Done tt s1 o1 -> sram_save_preset n q s1 = Done tt s2 o2 -> o2 = oa ++ ob ->
  exists r, loads (restarted s1 (memory_after (sr_mem s1) oa)) n r /\
    (r = Some p \/ r = Some q \/ r = None).
Proof. exact c21_edit. Qed.
Print Assumptions C21_edit_atomic_partial.
Example C21_nonvacuous :
  preset_ok torn_mixed /\ preset_ok torn_new /\ one_parameter_differs torn_mixed torn_new.
Proof. exact c21_example. Qed.

(** Bus ownership: false in every state. *)
Theorem C23_refuted : forall s op,
  sram_ok s -> sr_present s = true -> rop_ok op ->
  exists s' o, sram_step op s = Done tt s' o /\ sr_bus s' = negb (sr_bus s).
Proof. exact c23_flip. Qed.
Print Assumptions C23_refuted.
Theorem C23_load_refuted : forall s,
  sram_ok s -> sr_present s = true ->
  exists l s' o, sram_load_presets s = Done l s' o /\ sr_bus s' = negb (sr_bus s).
Proof. exact c23_load_flip. Qed.
Print Assumptions C23_load_refuted.
(** It holds when the cartridge has no SRAM: nothing at all happens. *)
Theorem C23_absent_partial : forall s op,
  sr_present s = false ->
  sram_step op s = Done tt s [] /\ sram_load_presets s = Done (repeat None 128) s [].
Proof. exact c23_absent. Qed.
Print Assumptions C23_absent_partial.
