(** Properties of transport discovery and of the load meter. *)
From Verif Require Import Base CommModel CommSpec CommProofs.

(** ** C50 *)
(** The first transport with data, lowest number first, is chosen; after that no
    other transport is polled, read or written. *)
Theorem C50_locks : forall ops pre a post i,
  polls ops = pre ++ a :: post -> Forall no_offer pre -> first_offer a i ->
  forall s o, load_run ops (comm0, meter0) = LDone s o ->
  cm_active (fst s) = Some i /\
  exists o1 o2, o = o1 ++ CevPoll i true :: o2 /\
    Forall (fun e => uses e = None) o1 /\ Forall (fun e => touches e = Some i \/ touches e = None) o2.
Proof. exact c50_lock. Qed.
Print Assumptions C50_locks.
(** All reads and writes of any history, finished or waiting, are on one transport. *)
Theorem C50_one_transport : forall ops, exists i,
  Forall (fun e => uses e = None \/ uses e = Some i) (events (load_run ops (comm0, meter0))).
Proof. exact c50_one. Qed.
Print Assumptions C50_one_transport.
(** Until a transport offers data nothing is read or written. *)
Theorem C50_before : forall ops,
  Forall no_offer (polls ops) ->
  Forall (fun e => uses e = None) (events (load_run ops (comm0, meter0))) /\
  forall s, end_state (load_run ops (comm0, meter0)) = Some s -> cm_active (fst s) = None.
Proof. exact c50_before. Qed.
Print Assumptions C50_before.
(** Each read follows at once a poll that found data on that transport. *)
Theorem C50_reads_served : forall ops, reads_served None (events (load_run ops (comm0, meter0))).
Proof. exact c50_served. Qed.
Print Assumptions C50_reads_served.
(** The only failure is a write while no transport is chosen. *)
Theorem C50_only_failure : forall ops f,
  load_run ops (comm0, meter0) = LFault f ->
  exists pre w data rest, ops = pre ++ LWrite w data :: rest /\
    exists s o, load_run pre (comm0, meter0) = LDone s o /\ cm_active (fst s) = None.
Proof. exact c50_safe. Qed.
Print Assumptions C50_only_failure.
Definition C50_history : list lop :=
  [LPoll [(false, false); (false, false); (true, false); (true, false)];
   LRead [[(false, true); (false, false); (true, false); (true, false)];
          [(false, true); (false, false); (true, true); (true, true)]];
   LRead [[(false, false); (false, false); (true, false); (true, true)];
          [(false, false); (false, false); (true, true); (true, true)]];
   LWrite [false; true] [1; 2]].
Example C50_nonvacuous : exists s o,
  load_run C50_history (comm0, meter0) = LDone s o /\ cm_active (fst s) = Some 2%nat /\
  o = [CevPoll 2 false; CevPoll 3 false; CevPoll 2 false; CevPoll 3 false; CevPoll 2 true; CevRead 2;
       CevPoll 2 false; CevPoll 2 true; CevRead 2; CevWrite 2 [1; 2]].
Proof. do 2 eexists. repeat split; vm_compute; reflexivity. Qed.

(** ** C70 *)
(** A reply sent while no transport is chosen is a NULL call. *)
Theorem C70_refuted : forall ops s o w data rest,
  Forall no_offer (polls ops) -> load_run ops (comm0, meter0) = LDone s o ->
  load_run (ops ++ LWrite w data :: rest) (comm0, meter0) = LFault F_null.
Proof. exact c50_write_early. Qed.
Print Assumptions C70_refuted.
Example C70_nonvacuous : load_run [LWrite [true] [0xF0]] (comm0, meter0) = LFault F_null.
Proof. reflexivity. Qed.

(** ** C51 *)
(** Counters and every percentage shown are in range, for every schedule of
    polls, reads, writes and frames. *)
Theorem C51_in_range : forall ops,
  Forall lop_ok ops ->
  Forall (fun e => match e with CevShow p => 0 <= p <= 100 | _ => True end) (events (load_run ops (comm0, meter0))) /\
  forall s, end_state (load_run ops (comm0, meter0)) = Some s ->
    0 <= cm_idle (fst s) <= 0x28F /\ 0 <= cm_reads (fst s) <= 0x28F.
Proof. exact c51. Qed.
Print Assumptions C51_in_range.
(** The percentage shown is the share of reads among the counted polls, and the
    counters restart. *)
Theorem C51_meaning : forall ops s o d,
  Forall lop_ok ops -> 0 <= d < 65536 -> load_run ops (comm0, meter0) = LDone s o ->
  forall s' o', load_step (LFrame d) s = LDone s' o' ->
  o' = [] \/
  o' = [CevShow (if cm_idle (fst s) + cm_reads (fst s) =? 0 then 0
                 else 100 * cm_reads (fst s) / (cm_idle (fst s) + cm_reads (fst s)))] /\
  cm_idle (fst s') = 0 /\ cm_reads (fst s') = 0.
Proof. exact c51_meaning. Qed.
Print Assumptions C51_meaning.
(** The drawing: four LEDs, two digits. *)
Theorem C51_drawing : forall p,
  0 <= p <= 100 -> 0 <= leds_lit p <= 4 /\ 0 <= load_text p <= 99 /\ (leds_lit p = 0 <-> p = 0).
Proof. exact c51_leds. Qed.
Print Assumptions C51_drawing.
Example C51_nonvacuous : exists s o,
  load_run [LRead [[(true, true)]]; LPoll [(true, false)]; LFrame 14; LFrame 1] (comm0, meter0) = LDone s o /\
  In (CevShow 50) o.
Proof. do 2 eexists. split; [vm_compute; reflexivity|]. cbn. auto. Qed.
