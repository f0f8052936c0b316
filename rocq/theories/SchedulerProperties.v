(** C52: delivery of frames to the frame handlers. *)
From Verif Require Import Base SchedulerModel SchedulerSpec SchedulerProofs.

(** Whenever the main loop is between two ticks, every handler has received the
    same total [T], and the vertical blanks are accounted for exactly: [T]
    delivered, the rest still outstanding in the counter (modulo its 16 bits),
    except those which fell while the handlers were running. Missing for the
    full property: exactly those, see [C52_frame_lost_refuted]. *)
Theorem C52_frames_accounted_partial :
  forall (n : nat) (ls : list slbl) (s : sched) (tr : list sobs),
    sched_run (sched_init n) ls = (s, tr) -> sc_pc s = PTick ->
    exists T, (forall h, (h < n)%nat -> delivered_to h tr = T) /\
      0 <= T /\ T + vsyncs_inside tr <= vsyncs tr /\
      (vsyncs tr - vsyncs_inside tr - T) mod 65536 = (sc_frame s - sc_prev s) mod 65536.
Proof. exact frames_accounted. Qed.
Print Assumptions C52_frames_accounted_partial.

(** Handlers are called in registration order, round after round. *)
Theorem C52_registration_order :
  forall (n : nat) (ls : list slbl) (s : sched) (tr : list sobs),
    sched_run (sched_init n) ls = (s, tr) -> rounds n (calls tr).
Proof. exact call_order. Qed.
Print Assumptions C52_registration_order.

(** A tick that is not interrupted delivers all that is outstanding. *)
Theorem C52_tick_delivers_outstanding :
  forall (n : nat) (f p tk : Z), (f =? p) = false ->
    sched_run (mkSched f p tk n PTick) (repeat LMain (5 + n))
    = (mkSched f f (u16 (tk + 1)) n PTick,
       OTick :: map (fun i => OCall i (u16 (f - p))) (seq 0 n)).
Proof. exact tick_deliver. Qed.
Print Assumptions C52_tick_delivers_outstanding.

(** A vertical blank during a handler is lost for good: two have happened, one
    was delivered and none is outstanding. *)
Theorem C52_frame_lost_refuted :
  exists ls s, let (s', tr) := sched_run (sched_init 1) ls in
    s' = s /\ sc_pc s = PTick /\ sc_frame s = sc_prev s /\
    vsyncs tr = 2 /\ delivered_to 0 tr = 1.
Proof. exact lost_frame. Qed.
Print Assumptions C52_frame_lost_refuted.

(** Start-up never exceeds the handler tables. *)
Theorem C52_registration_fits :
  forall mw : bool, exists r, boot_registrations mw (mkRegs [] []) = Done tt r [].
Proof. exact boot_ok. Qed.
Print Assumptions C52_registration_fits.

(** ... but with MegaWiFi built in there is no room for one more. *)
Theorem C52_registration_exactly_full :
  exists r, boot_registrations true (mkRegs [] []) = Done tt r [] /\
    rg_frame r = [H_psg_tick; H_midi_tick; H_ui_update; H_megawifi_vsync; H_demo_vsync; H_led_tick] /\
    rg_tick r = [H_megawifi_tick; H_midi_rx] /\ forall h, add_frame_handler h r = Fault F_die.
Proof. exact boot_table_full. Qed.
Print Assumptions C52_registration_exactly_full.

(** Two blanks before the tick, one between the comparison and the load. *)
Example C52_nonvacuous :
  let (s, tr) := sched_run (sched_init 2)
     [LVsync; LVsync; LMain; LMain; LVsync; LMain; LMain; LMain; LMain; LMain] in
  sc_pc s = PTick /\ vsyncs tr = 3 /\ vsyncs_inside tr = 0 /\
  delivered_to 0 tr = 3 /\ delivered_to 1 tr = 3 /\ calls tr = [0; 1]%nat.
Proof. vm_compute. repeat split; reflexivity. Qed.
