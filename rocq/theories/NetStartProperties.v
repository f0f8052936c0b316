(** C106: the network at power-on; C107: comparing bytes. *)
From Verif Require Import Base IpUtilSpec IpUtilModel MidiModel NetModel NetSpec NetStartModel NetStartSpec NetStartProofs.

(** ** C106 *)
(** Whatever the library answers, the network is in use exactly if the module is there,
    works and has an address and both ports could be opened. *)
Theorem C106_listens : forall a, snd (start_network a) = true <-> usable a.
Proof. exact listens_iff. Qed.
Print Assumptions C106_listens.

(** With a module, the user is told which of the two it is: the address to connect to
    and no warning, or a warning and no address. *)
Theorem C106_told : forall a, an_uart a = true ->
  if snd (start_network a) then In (LListening (uint32_to_ip_str (an_addr a)) 5006) (fst (start_network a)) /\ (forall e, In e (fst (start_network a)) -> ~ warning e)
  else (exists e, In e (fst (start_network a)) /\ warning e) /\ forall x p, ~ In (LListening x p) (fst (start_network a)).
Proof. exact told_which. Qed.
Print Assumptions C106_told.
Example C106_nonvacuous : let a := mkAnswers true 0 0 (1, 5) (-1) 0 0 0 0xC0A80102 (fun _ => 0) in
  usable a /\ joined a /\ In (SAssoc 0) (fst (start_network a)) /\ In (LListening [49; 57; 50; 46; 49; 54; 56; 46; 49; 46; 50] 5006) (fst (start_network a)).
Proof. exact start_example. Qed.
Example C106_failed_nonvacuous : let a := mkAnswers true 0 (-3) (0, 0) 0 0 0 0 0 (fun _ => 0) in
  an_uart a = true /\ snd (start_network a) = false /\ In LNotFound (fst (start_network a)).
Proof. exact failed_example. Qed.

(** In use, session control is on port 5006 (channel 1 of the module) and MIDI on the
    port above (channel 2), each opened once. *)
Theorem C106_ports : forall a, snd (start_network a) = true ->
  exists p1 p2, ports (fst (start_network a)) = [(1, p1); (2, p2)] /\ decimal p1 5006 /\ decimal p2 5007.
Proof. exact ports_opened. Qed.
Print Assumptions C106_ports.

(** Without a module the library is never called; with one, joining the access point is
    waited for at most 20 seconds at 60 frames a second. *)
Theorem C106_absent : forall a, an_uart a = false -> start_network a = ([SYield], false).
Proof. exact absent_quiet. Qed.
Print Assumptions C106_absent.
Theorem C106_waits : forall a f, In f (waits (fst (start_network a))) -> f = 20 * 60.
Proof. exact waits_little. Qed.
Print Assumptions C106_waits.
Example C106_waits_nonvacuous : In 1200 (waits (fst (start_network not_joined))).
Proof. vm_compute. auto. Qed.

(** Not in use, nothing the interface writes is sent and no byte ever comes from the
    network. In use, the transport is the one of C57-C60, C103, C104. *)
Theorem C106_deaf : forall ops s tr, Forall nop_ok ops -> guarded_run false ops net_boot = NDone tt s tr -> net_read_ready s = false /\ handed_over tr = [].
Proof. exact deaf. Qed.
Print Assumptions C106_deaf.
Example C106_deaf_nonvacuous : exists s tr, Forall nop_ok [NWrite [0x90; 60; 100]; NTick [CbSent] true true; NVsync 1] /\
  guarded_run false [NWrite [0x90; 60; 100]; NTick [CbSent] true true; NVsync 1] net_boot = NDone tt s tr /\ exists c d, In (NQueued c d) tr.
Proof. exact deaf_example. Qed.
Theorem C106_in_use : forall ops s, guarded_run true ops s = net_run ops s.
Proof. intros ops s. exact (guarded_listening ops s). Qed.
Print Assumptions C106_in_use.

(** Refuted, that the network is in use only when the access point was joined: a failure
    to join goes unnoticed, and an address is announced. *)
Theorem C106_refuted : ~ joined not_joined /\ usable not_joined /\ (forall e, In e (fst (start_network not_joined)) -> ~ warning e) /\
  In (LListening [48; 46; 48; 46; 48; 46; 48] 5006) (fst (start_network not_joined)).
Proof. exact unjoined_listens. Qed.
Print Assumptions C106_refuted.

(** ** C107 *)
(** Of two regions of [n] bytes: 0 exactly if they are equal, negative or positive by the
    first difference; nothing behind them is read. *)
Theorem C107_order : forall n x y, (n <= length x)%nat -> (n <= length y)%nat -> exists v, memcmp x y n = Some v /\
  (v = 0 <-> firstn n x = firstn n y) /\ (v < 0 <-> lex_less (firstn n x) (firstn n y)) /\ (0 < v <-> lex_less (firstn n y) (firstn n x)).
Proof. exact memcmp_total. Qed.
Print Assumptions C107_order.
Example C107_nonvacuous : memcmp [1; 200; 3] [1; 100; 4] 3 = Some 1 /\ lex_less [1; 100; 4] [1; 200; 3] /\ memcmp [0x7E; 0x7F; 9] [0x7E; 0x7F; 1] 2 = Some 0.
Proof. split; [reflexivity|]. split; [exists [1], 100, 200, [4], [3]; repeat split|reflexivity]. Qed.

(** The comparison by which SysEx messages are recognised is the one the model of midi.c
    uses. *)
Theorem C107_recognises : forall p data, (length p <= length data)%nat -> (memcmp data p (length p) = Some 0 <-> has_prefix p data = true).
Proof. exact memcmp_prefix. Qed.
Print Assumptions C107_recognises.
