(** C02: the ring buffer between the receive interrupt and the main loop. *)
From Verif Require Import Base RingBufModel RingSpscModel RingSpscSpec RingSpscProofs.

(** For every interleaving of individual memory accesses, the bytes received
    are a prefix of the bytes sent, and what is missing is still queued. *)
Theorem C02_delivered_once_in_order :
  forall (n : Z) (arr : list Z) (ls : list lbl) (s : sys) (tr : list obs),
    2 <= n <= 65535 -> n <= Z.of_nat (length arr) ->
    sys_run (sys_init arr n) ls = Some (s, tr) ->
    exists rest, sent tr = received tr ++ rest /\ Z.of_nat (length rest) <= n - 1.
Proof. exact spsc_main. Qed.
Print Assumptions C02_delivered_once_in_order.

(** The bytes of the write calls made are exactly those reported back (as OK
    or FULL), in order, plus the one in progress: nothing is invented. *)
Theorem C02_every_write_reported :
  forall (ls : list lbl) (s s' : sys) (tr : list obs),
    sys_run s ls = Some (s', tr) ->
    p_pending (y_p s) ++ requested ls = reported tr ++ p_pending (y_p s').
Proof. exact requested_reported. Qed.
Print Assumptions C02_every_write_reported.

(** Neither side ever leaves its storage or blocks inside a call. *)
Theorem C02_never_stuck :
  forall (n : Z) (arr : list Z) (ls : list lbl) (s : sys) (tr : list obs),
    2 <= n <= 65535 -> n <= Z.of_nat (length arr) ->
    sys_run (sys_init arr n) ls = Some (s, tr) ->
    (y_p s <> PIdle -> sys_step s LStepW <> None) /\
    (y_c s <> CIdle -> sys_step s LStepR <> None).
Proof. exact never_stuck. Qed.
Print Assumptions C02_never_stuck.

(** A write is refused only when n-1 bytes really are queued. *)
Theorem C02_refused_only_when_full :
  forall (n : Z) (arr : list Z) (ls : list lbl) (l : lbl) (s s' : sys) (tr o : list obs) (d : Z),
    2 <= n <= 65535 -> n <= Z.of_nat (length arr) ->
    sys_run (sys_init arr n) ls = Some (s, tr) ->
    sys_step s l = Some (s', o) -> In (ORetW d RB_FULL) o ->
    Z.of_nat (length (sent tr)) - Z.of_nat (length (received tr)) = n - 1.
Proof. exact full_only_when_full. Qed.
Print Assumptions C02_refused_only_when_full.

(** "Ready to read" is never a false promise. *)
Theorem C02_ready_reliable :
  forall (n : Z) (arr : list Z) (ls : list lbl) (l : lbl) (s s' : sys) (tr o : list obs),
    2 <= n <= 65535 -> n <= Z.of_nat (length arr) ->
    sys_run (sys_init arr n) ls = Some (s, tr) ->
    sys_step s l = Some (s', o) -> In (ORetQ true) o ->
    (length (received tr) < length (sent tr))%nat.
Proof. exact ready_reliable. Qed.
Print Assumptions C02_ready_reliable.

(** The free-space query is not interrupt-safe: with 512 slots, a byte arriving
    between its loads makes the consumer see more free space than the ring
    has, although every load it did was a legal value of [head]. *)
Theorem C02_available_race_refuted :
  exists size tail h1 h2 h3,
    size = 512 /\ 0 <= tail < size /\ h2 = h1 /\ 0 <= h1 < size /\
    h3 = (h2 + 1) mod size /\ h3 <> tail /\
    available_loads size tail h1 h2 h3 > size - 1.
Proof. exists 512, 500, 511, 511, 0. vm_compute. intuition congruence. Qed.
Print Assumptions C02_available_race_refuted.

(** A concrete schedule: the read starts while a write is half-way. *)
Example C02_nonvacuous :
  exists s, sys_run (sys_init [0; 0; 0] 3)
    [LStartW 7; LStepW; LStepW; LStepW; LStepW; LStartR false true; LStepR; LStepW; LStepR; LStepR;
     LStepR; LStartW 9; LStepW; LStepR; LStepR; LStepW; LStepW; LStepW; LStepW]
  = Some (s, [ORetW 7 RB_OK; ORetR RB_OK (Some 7); ORetW 9 RB_OK]).
Proof. eexists. vm_compute. reflexivity. Qed.
