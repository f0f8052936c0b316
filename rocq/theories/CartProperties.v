(** C112: finding a cartridge, and leaving alone what is not there. *)
From Verif Require Import Base RingBufModel SerialModel SynthModel SramModel BusModel BusSpec BusExampleProofs CartModel CartSpec CartProofs CartRunProofs CartExampleProofs.
From Verif Require SynthSpec.

(** Start-up reads the two status registers once each, writes to neither cartridge, and
    recognises exactly the cartridges that identify themselves. *)
Theorem C112_recognised : forall arr s ans x7 pro s1 rest tr, length arr = 512%nat -> power_up arr s ans = BDone (x7, pro) s1 rest tr ->
  exists a b port, word a /\ word b /\ tr = Rd W16 0xA130E4 a :: Rd W16 0xA130D4 b :: port /\ Forall in_port port /\
    (x7 = true <-> names_x7 a) /\ (pro = true <-> names_pro b).
Proof. intros arr s ans x7 pro s1 rest tr La E. destruct (recognised _ _ _ _ _ _ _ _ La E) as (a & b & port & H1 & H2 & H3 & H4 & H5 & H6 & _). exists a, b, port. auto 6. Qed.
Print Assumptions C112_recognised.
Example C112_recognised_nonvacuous : forall rest, power_up (repeat 0 512) (power_on NoCart) (0x4003 :: 0x0000 :: 0x00 :: rest) = BDone (true, false) started rest (start_accesses 0x4003 0x0000) /\
  power_up (repeat 0 512) (power_on NoCart) (0x3F00 :: 0x55A3 :: 0x00 :: rest) = BDone (false, true) started rest (start_accesses 0x3F00 0x55A3) /\
  power_up (repeat 0 512) (power_on NoCart) (0x3F00 :: 0x0000 :: 0x00 :: rest) = BDone (false, false) started rest (start_accesses 0x3F00 0x0000).
Proof. intros rest. exact (conj (start_x7 rest) (conj (start_pro rest) (start_none rest))). Qed.

(** From then on, whatever happens and whatever the hardware answers, a cartridge that was
    not recognised is not touched. *)
Theorem C112_hands_off : forall arr s ans x7 pro s1 rest tr ops, length arr = 512%nat -> dv_led s = false -> power_up arr s ans = BDone (x7, pro) s1 rest tr ->
  Forall (only_found x7 pro) (accesses (cart_run x7 pro ops None s1 rest)).
Proof. exact hands_off. Qed.
Print Assumptions C112_hands_off.
Example C112_hands_off_nonvacuous : dv_led (power_on NoCart) = false /\
  exists s tr, cart_run true false [KPoll false; KRead false; KFrame] None started [0x4003; 0x4007; 0x0190] = BDone (Some ViaX7, [0x90]) s [] tr /\
    tr = [Rd W16 0xA130E4 0x4003; Rd W16 0xA130E4 0x4007; Wr W16 0xA130F0 0x9000; Rd W16 0xA130E2 0x0190; Wr W16 0xA130F0 0x8000].
Proof. exact (conj (proj2 started_empty) x7_used). Qed.

(** While none is in use, the first of X7, PRO, serial port and the rest that has data is
    taken, and those behind it are not asked; [q] is what the serial port has received. *)
Theorem C112_chosen : forall x7 pro other q s ans, (q <> [] -> dv_recv s = true) -> ring_holds (dv_ring s) q ->
  forall act d s' rest tr, cart_step x7 pro (KPoll other) None s ans = BDone (act, d) s' rest tr ->
  s' = s /\ d = [] /\ exists a b, word a /\ word b /\ (act, tr) = first_with_data x7 pro other q a b.
Proof. exact chosen. Qed.
Print Assumptions C112_chosen.
Example C112_chosen_nonvacuous : ring_holds (dv_ring started) [] /\
  cart_step true true (KPoll false) None started [0x4003; 0x0001] = BDone (Some ViaPro, []) started [] [Rd W16 0xA130E4 0x4003; Rd W16 0xA130D2 0x0001] /\
  first_with_data true true false [] 0x4003 0x0001 = (Some ViaPro, [Rd W16 0xA130E4 0x4003; Rd W16 0xA130D2 0x0001]).
Proof. split; [exact (proj1 started_empty)|]. split; reflexivity. Qed.

(** The one taken stays in use, and no other is touched any more. *)
Theorem C112_one : forall arr s ans x7 pro s1 rest tr ops w d s2 rest2 tr2 more, length arr = 512%nat -> dv_led s = false -> power_up arr s ans = BDone (x7, pro) s1 rest tr ->
  cart_run x7 pro ops None s1 rest = BDone (Some w, d) s2 rest2 tr2 ->
  Forall (only_used w) (accesses (cart_run x7 pro more (Some w) s2 rest2)) /\
  (forall act d' s3 rest3 tr3, cart_run x7 pro more (Some w) s2 rest2 = BDone (act, d') s3 rest3 tr3 -> act = Some w) /\
  forall f, cart_run x7 pro more (Some w) s2 rest2 <> BFault f.
Proof. exact one_in_use. Qed.
Print Assumptions C112_one.

(** Nothing fails on the way there, unless something is sent before any transport is in use
    (C70). *)
Theorem C112_runs_on : forall arr s ans, length arr = 512%nat -> dv_led s = false ->
  (forall f, power_up arr s ans <> BFault f) /\
  forall x7 pro s1 rest tr ops f, power_up arr s ans = BDone (x7, pro) s1 rest tr -> ~ Exists is_write ops -> cart_run x7 pro ops None s1 rest <> BFault f.
Proof.
  intros arr s ans La L. split; [intros f; exact (start_goes_on arr s ans f La)|].
  intros x7 pro s1 rest tr ops f E Hw. exact (runs_on _ _ _ _ _ _ _ _ _ _ La L E Hw).
Qed.
Print Assumptions C112_runs_on.

(** False: that the memory of a recognised cartridge takes part.  A preset saved with a PRO
    recognised makes no access at all, because its driver was chosen (sram.c:38-48, from
    midi_init) before the cartridges were looked for (comm_init). *)
Theorem C112_storage_refuted : ~ (forall arr s ans x7 pro s1 rest tr n p, length arr = 512%nat -> dv_led s = false -> power_up arr s ans = BDone (x7, pro) s1 rest tr -> (x7 = true \/ pro = true) -> 0 <= n < 128 ->
  exists e a, In e (accesses (cart_run x7 pro [KStore (RSave n p)] None s1 rest)) /\ address e = Some a /\ storage_place a).
Proof.
  intros H. destruct (H (repeat 0 512) (power_on NoCart) _ _ _ _ _ _ 3 (SynthSpec.demo_preset 4) (repeat_length 0 512) eq_refl (start_pro []) (or_intror eq_refl) ltac:(lia)) as (e & a & He & _).
  destruct (storing (SynthSpec.demo_preset 4)) as (s & E). rewrite E in He. exact He.
Qed.
Print Assumptions C112_storage_refuted.
(** In no history is it touched. *)
Theorem C112_storage_idle : forall arr s ans x7 pro s1 rest tr ops e a, length arr = 512%nat -> dv_led s = false -> power_up arr s ans = BDone (x7, pro) s1 rest tr ->
  In e (tr ++ accesses (cart_run x7 pro ops None s1 rest)) -> address e = Some a -> ~ storage_place a.
Proof. exact storage_idle. Qed.
Print Assumptions C112_storage_idle.
