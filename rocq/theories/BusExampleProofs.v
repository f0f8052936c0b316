(** Concrete cases for the theorems about the drivers on the bus. *)
From Verif Require Import Base BaseLemmas RingBufModel MidiModel RxModel SerialModel SynthModel SynthSpec SramModel SramSpec SramProofs BusModel BusSpec BusProofs BusSerialProofs BusStoreProofs.
Local Open Scope b_scope.

(** A machine at power-on with the VDP registers SGDK sets (register 0: 0x04, register 1:
    0x64), and cartridge [k]. *)
Definition power_on_with (r0 : Z) (k : cart) : drv := mkDrv 0 false false ring_zero false k false false 7 ([r0; 0x64] ++ repeat 0 22) false.
Definition power_on : cart -> drv := power_on_with 0x04.

(** Sending two bytes to a transmitter that is busy now and then. *)
Lemma sends_example : comm_write TSerial [0xF0; 0xF7] (power_on NoCart) [1; 0; 0; 1; 1; 0x30; 7] =
  BDone tt (power_on NoCart) [7] [Rd W8 0xA10019 1; Rd W8 0xA10019 0; Rd W8 0xA10019 0; Wr W8 0xA10015 0xF0; Rd W8 0xA10019 1; Rd W8 0xA10019 1; Rd W8 0xA10019 0x30; Wr W8 0xA10015 0xF7].
Proof. reflexivity. Qed.
Lemma frames_example : exists tr, in_turn (map (comm_write TPro) [[0xF0; 0xF7]; [1; 2; 3]]) (power_on CartPro) [] = BDone tt (power_on CartPro) [] tr /\
  written 0xA130D0 tr = [0x2B; 0xD4; 0x22; 0xDD; 0; 2; 0xF0; 0xF7; 0x2B; 0xD4; 0x22; 0xDD; 0; 3; 1; 2; 3].
Proof. eexists. split; reflexivity. Qed.
Lemma reads_example : comm_read UX7 (power_on CartX7) [0; 4; 0x190] = BDone 0x90 (set_led true (power_on CartX7)) []
  [Rd W16 0xA130E4 0; Rd W16 0xA130E4 4; Wr W16 0xA130F0 0x9000; Rd W16 0xA130E2 0x190].
Proof. reflexivity. Qed.
Lemma fifo_example : exists tr, bi_fifo_rd 3 (power_on CartPro) [0x8000; 2; 0x90; 0x40; 0; 7; 0x7F] = BDone [0x90; 0x40; 0x7F] (power_on CartPro) [] tr /\
  tr = [Rd W16 0xA130D2 0x8000; Rd W16 0xA130D2 2; Rd W16 0xA130D0 0x90; Rd W16 0xA130D0 0x40; Rd W16 0xA130D2 0; Rd W16 0xA130D2 7; Rd W16 0xA130D0 0x7F].
Proof. eexists. split; reflexivity. Qed.
Lemma light_example : exists s' tr, led_run [LRead UX7; LRead UX7; LFrame; LRead UX7] (power_on CartX7) [4; 1; 4; 2; 4; 3] = BDone tt s' [] tr /\ lit tr = true /\ written 0xA130F0 tr = [0x9000; 0x8000; 0x9000].
Proof. eexists _, _. split; [reflexivity|]. split; reflexivity. Qed.
(** Three bytes in two interrupts, taken out one by one. *)
Lemma received_example : offers [] [0] /\ offers_all [[0x90; 0x40]; [0x7F]] ([2; 0x90; 2; 0x40; 0] ++ [2; 0x7F; 0] ++ []) /\
  interrupts [PortInt; PortTake; PortInt; PortTake; PortTake; PortTake] = 2%nat /\ within 511 [PortInt; PortTake; PortInt; PortTake; PortTake; PortTake] [[0x90; 0x40]; [0x7F]] 0 /\
  taken_out [PortInt; PortTake; PortInt; PortTake; PortTake; PortTake] [[0x90; 0x40]; [0x7F]] [] = [0x90; 0x40; 0x7F].
Proof.
  split; [constructor; [reflexivity|unfold byte; lia]|]. split.
  - apply offers_next; [|apply offers_next; [|apply offers_over]]; repeat first [apply offers_byte|apply offers_none]; first [reflexivity|unfold byte; lia].
  - split; [reflexivity|]. split; [|reflexivity]. cbn. lia.
Qed.
(** 512 bytes at once. *)
Lemma overrun_example : let l := repeat 0x40 512 in offers l (flat_map (fun b => [2; b]) l ++ [0]) /\ left_over [] [] [] = [] /\ firstn (511 - 0) l <> l.
Proof.
  cbv zeta. split; [|split; [reflexivity|intros E; apply (f_equal (@length Z)) in E; rewrite firstn_length, repeat_length in E; cbn in E; discriminate E]].
  generalize 512%nat. induction n as [|n IH]; cbn [repeat flat_map Datatypes.app]; [constructor; [reflexivity|unfold byte; lia]|]. constructor; [reflexivity|unfold byte; lia|unfold byte; lia|exact IH].
Qed.
(** Interrupts before and after the window. *)
Lemma startup_example : ~ In 7%nat (int_times 0 ([BStep; BInt] ++ repeat BStep 7 ++ [BInt; BStep; BInt])) /\ length (dv_vdp (power_on NoCart)) = 24%nat /\ dv_ext (power_on NoCart) = false /\ dv_cb (power_on NoCart) = false.
Proof. split; [|repeat split]. cbn. intros H. repeat destruct H as [H|H]; discriminate || exact H. Qed.

Lemma ready_with r0 k : byte r0 -> k <> NoCart -> ready_cart (power_on_with r0 k) (mkCartridge 0x8000 4 (repeat 0 (Z.to_nat 8192))).
Proof.
  intros B0 NK. split; [split; [cbn [ct_mem]; rewrite repeat_length; lia|]|split; [split; reflexivity|split; [exact NK|split; [reflexivity|]]]].
  - apply Forall_forall. intros x H. apply repeat_spec in H. subst x. unfold byte. lia.
  - apply Forall_app. split; [repeat apply Forall_cons; try apply Forall_nil; [exact B0|unfold byte; lia]|]. apply Forall_forall. intros x H. apply repeat_spec in H. subst x. unfold byte. lia.
Qed.
Lemma ready_blank k : k <> NoCart -> ready_cart (power_on k) (mkCartridge 0x8000 4 (repeat 0 (Z.to_nat 8192))).
Proof. apply ready_with. unfold byte. lia. Qed.
Definition two_saves : list rop := [RSave 5 (demo_preset 4); RSave 6 (demo_preset 4); RClear 6].
Lemma two_saves_ok : Forall rop_ok two_saves.
Proof. repeat apply Forall_cons; try apply Forall_nil; repeat split; try (cbn; lia); try apply demo_preset_ok. Qed.
Lemma bus_example : exists ans0 l0 s0 tr0 ans l s' tr, let s := power_on CartX7 in let c := mkCartridge 0x8000 4 (repeat 0 (Z.to_nat 8192)) in
  ready_cart s c /\ Forall rop_ok two_saves /\ bus_load_presets s ans0 = BDone l0 s0 [] tr0 /\ honest (base_of (dv_cart s)) c tr0 /\
  (bus_run two_saves ;; bus_load_presets) s ans = BDone l s' [] tr /\ honest (base_of (dv_cart s)) c tr /\ zget l 5 = Some (Some (demo_preset 4)) /\ zget l 6 = Some None.
Proof.
  assert (R := ready_blank CartX7 ltac:(discriminate)).
  destruct (bus_possible [] _ _ R (Forall_nil _)) as (ans0 & l0 & s0 & tr0 & E0 & H0). destruct (bus_possible _ _ _ R two_saves_ok) as (ans & l & s' & tr & E & H).
  exists ans0, l0, s0, tr0, ans, l, s', tr. cbv zeta.
  apply bbind_inv in E0 as ([] & s1 & r1 & o1 & o2 & X & E0 & Eo). injection X as <- <- <-. cbn [Datatypes.app] in Eo. subst o2.
  split; [exact R|]. split; [exact two_saves_ok|]. split; [exact E0|]. split; [exact H0|]. split; [exact E|]. split; [exact H|].
  assert (M := bus_map two_saves _ _ _ _ _ _ _ _ _ _ _ _ R two_saves_ok E0 H0 E H).
  split; [rewrite (M 5) by (unfold is_program; lia)|rewrite (M 6) by (unfold is_program; lia)]; reflexivity.
Qed.
(** The presets are saved and loaded; register 0 was [r0]. *)
Lemma saved_with r0 : byte r0 -> exists c ans s' tr, ready_cart (power_on_with r0 CartPro) c /\ (bus_run two_saves ;; _ <- bus_load_presets ;; bret tt) (power_on_with r0 CartPro) ans = BDone tt s' [] tr /\ honest (base_of CartPro) c tr /\
  Z.testbit (reg (dv_vdp s') 0) 4 = true.
Proof.
  intros B0. assert (R := ready_with r0 CartPro B0 ltac:(discriminate)). destruct (bus_possible two_saves _ _ R two_saves_ok) as (ans & l & s' & tr & E & H).
  assert (E' : (bus_run two_saves ;; _ <- bus_load_presets ;; bret tt) (power_on_with r0 CartPro) ans = BDone tt s' [] tr).
  { apply bbind_inv in E as ([] & s1 & r1 & o1 & o2 & X & E & ->). rewrite (bbind_done _ _ _ _ _ _ _ _ X), (bbind_done _ _ _ _ _ _ _ _ E). cbn [bret]. unfold bret. rewrite app_nil_r. reflexivity. }
  exists (mkCartridge 0x8000 4 (repeat 0 (Z.to_nat 8192))), ans, s', tr. split; [exact R|]. split; [exact E'|]. split; [exact H|].
  apply (bus_legal two_saves _ _ _ _ _ _ R two_saves_ok E' H).
Qed.
(** The line interrupt, off before, is on after the presets were saved. *)
Lemma not_restored : exists s c ans s' tr, ready_cart s c /\ (bus_run two_saves ;; _ <- bus_load_presets ;; bret tt) s ans = BDone tt s' [] tr /\ honest (base_of (dv_cart s)) c tr /\
  Z.testbit (reg (dv_vdp s) 0) 4 = false /\ Z.testbit (reg (dv_vdp s') 0) 4 = true.
Proof. destruct (saved_with 0x04 ltac:(unfold byte; lia)) as (c & ans & s' & tr & R & E & H & B). exists (power_on CartPro), c, ans, s', tr. repeat (split; [first [eassumption|reflexivity]|]). exact B. Qed.
Lemma restored_example : exists s c ans s' tr, ready_cart s c /\ (bus_run two_saves ;; _ <- bus_load_presets ;; bret tt) s ans = BDone tt s' [] tr /\ honest (base_of (dv_cart s)) c tr /\
  Z.testbit (reg (dv_vdp s) 0) 4 = true /\ Z.testbit (reg (dv_vdp s) 1) 5 = true.
Proof. destruct (saved_with 0x14 ltac:(unfold byte; lia)) as (c & ans & s' & tr & R & E & H & B). exists (power_on_with 0x14 CartPro), c, ans, s', tr. repeat (split; [first [eassumption|reflexivity]|]). reflexivity. Qed.
(** A preset cleared between a byte and the next frame. *)
Lemma light_out : exists s' tr, led_run [LRead UX7; LStore (RClear 5)] (power_on CartX7) [4; 0x90] = BDone tt s' [] tr /\ lit tr = false /\ read_since false [LRead UX7; LStore (RClear 5)] = true.
Proof. eexists _, _. split; [reflexivity|]. split; reflexivity. Qed.
