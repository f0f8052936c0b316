(** Cartridges found and used. *)
From Verif Require Import Base RingBufModel SerialModel SynthModel SramModel BusModel BusSpec BusExampleProofs CartModel CartSpec CartProofs CartRunProofs.
Local Open Scope b_scope.

(** The state of the drivers after start-up, in which nothing waited in the port. *)
Definition started : drv := match power_up (repeat 0 512) (power_on NoCart) [0x4003; 0x0000; 0x00] with BDone _ s _ _ => s | _ => power_on NoCart end.
Definition start_accesses (a b : Z) : list bus :=
  [Rd W16 0xA130E4 a; Rd W16 0xA130D4 b; Wr W8 0xA10019 0x38; Wr W8 0xA1000B 0x7F; IntMask 1; Vdp 11 8; Rd W8 0xA10019 0].
(** An X7 (with a USB cable), a PRO (which leaves the X7's register alone), and neither. *)
Lemma start_x7 rest : power_up (repeat 0 512) (power_on NoCart) (0x4003 :: 0x0000 :: 0x00 :: rest) = BDone (true, false) started rest (start_accesses 0x4003 0x0000).
Proof. destruct rest; vm_compute; reflexivity. Qed.
Lemma start_pro rest : power_up (repeat 0 512) (power_on NoCart) (0x3F00 :: 0x55A3 :: 0x00 :: rest) = BDone (false, true) started rest (start_accesses 0x3F00 0x55A3).
Proof. destruct rest; vm_compute; reflexivity. Qed.
Lemma start_none rest : power_up (repeat 0 512) (power_on NoCart) (0x3F00 :: 0x0000 :: 0x00 :: rest) = BDone (false, false) started rest (start_accesses 0x3F00 0x0000).
Proof. destruct rest; vm_compute; reflexivity. Qed.

(** Nothing yet, then a byte from the X7, and its light goes out again. *)
Lemma x7_used : exists s tr, cart_run true false [KPoll false; KRead false; KFrame] None started [0x4003; 0x4007; 0x0190] = BDone (Some ViaX7, [0x90]) s [] tr /\
  tr = [Rd W16 0xA130E4 0x4003; Rd W16 0xA130E4 0x4007; Wr W16 0xA130F0 0x9000; Rd W16 0xA130E2 0x0190; Wr W16 0xA130F0 0x8000].
Proof. eexists. eexists. split; [vm_compute; reflexivity|reflexivity]. Qed.
Lemma storing p : exists s, cart_run false true [KStore (RSave 3 p)] None started [] = BDone (None, []) s [] [].
Proof. eexists. reflexivity. Qed.
Lemma started_empty : ring_holds (dv_ring started) [] /\ dv_led (power_on NoCart) = false.
Proof. split; [eexists; vm_compute; reflexivity|reflexivity]. Qed.
