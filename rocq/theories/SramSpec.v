(** Independent view of the preset store: what a user expects of saving,
    clearing and loading. *)
From Verif Require Import Base SynthModel SynthSpec CrcSpec SramModel.

Definition is_byte (b : Z) : Prop := 0 <= b < 256.
Definition is_program (n : Z) : Prop := 0 <= n < 128.
(** A memory large enough for the 128 slots, holding bytes. *)
Definition sram_ok (s : sram) : Prop := (4640 <= length (sr_mem s))%nat /\ Forall is_byte (sr_mem s).
Definition rop_ok (op : rop) : Prop :=
  match op with RSave n p => is_program n /\ preset_ok p | RClear n => is_program n end.

(** The program an operation is about. *)
Definition op_program (op : rop) : Z := match op with RSave n _ => n | RClear n => n end.

(** The 36 bytes of program [n]'s slot, and the memory outside it. *)
Definition slot_at (s : sram) (n : Z) : list Z := firstn 36 (skipn (Z.to_nat (32 + 36 * n)) (sr_mem s)).
Definition in_slot (n a : Z) : Prop := 32 + 36 * n <= a < 32 + 36 * n + 36.

(** What loading returns for program [n] (whatever else happens). *)
Definition loads (s : sram) (n : Z) (r : option preset) : Prop :=
  exists l s' o, sram_load_presets s = Done l s' o /\ zget l n = Some r.

(** The map a user has in mind. *)
Definition table := Z -> option preset.
Definition table_step (t : table) (op : rop) : table :=
  match op with
  | RSave n p => fun k => if k =? n then Some p else t k
  | RClear n => fun k => if k =? n then None else t k
  end.

(** Memory after a power cut: only the byte writes of the trace got through. *)
Definition write_through (mem : list Z) (e : event) : list Z :=
  match e with EvSramWrite a v => zset mem a v | _ => mem end.
Definition memory_after (mem : list Z) (tr : list event) : list Z := fold_left write_through tr mem.
(** The machine as it finds the memory at the next start. *)
Definition restarted (s : sram) (mem : list Z) : sram := mkSram (sr_present s) mem false false.

(** [q] is [p] with one parameter changed. *)
Definition one_value_differs (v w : list Z) : Prop :=
  exists a x y b, v = a ++ x :: b /\ w = a ++ y :: b /\ x <> y.
Definition head_values (p : preset) : list Z := [p_alg p; p_fb p; p_ams p; p_fms p].
Definition one_parameter_differs (p q : preset) : Prop :=
  (one_value_differs (head_values p) (head_values q) /\ p_ops p = p_ops q) \/
  (head_values p = head_values q /\
   exists a o o' b, p_ops p = a ++ o :: b /\ p_ops q = a ++ o' :: b /\
     one_value_differs (op_values o) (op_values o')).
