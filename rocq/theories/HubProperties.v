(** C109: the interface with several transports.
    [hub_running r hw mem n present evs s out tr] (HubSpec): after power-on with [n]
    transports, of which those with [present] are there, the bytes, polls and frames [evs]
    lead to state [s]; [out] is everything the interface wrote, [tr] every call of a
    transport.  [chosen … evs i]: at the first poll that found data, [i] was the first
    transport that had some.  [brings_in … evs l]: what the chosen transport, if any,
    received begins the messages [l]; what the others receive is arbitrary. *)
From Verif Require Import Base MidiModel MidiSpec RxModel RxSpec DevModel DevSpec AppModel AppSpec AppExampleProofs CommModel CommSpec MachineSpec WifiSpec HubModel HubSpec.
From Verif Require Import HubProofs HubExampleProofs.
From Verif Require WifiExampleProofs.

(** ** C109: one transport is played, and answered; the others are not touched *)
(** The interface uses the transport that first had data, and reads and writes no other. *)
Theorem C109_choice : forall r hw mem n present evs l s out tr, hub_running r hw mem n present evs s out tr -> brings_in n present evs l ->
  (forall i, cm_active (hb_comm s) = Some i <-> chosen n present evs i) /\ Forall (fun e => forall i, uses e = Some i -> chosen n present evs i) tr.
Proof. exact hub_choice. Qed.
Print Assumptions C109_choice.

(** The choice is made once and for all. *)
Theorem C109_for_good : forall n present evs more i j, chosen n present evs i -> chosen n present (evs ++ more) j -> j = i.
Proof. intros. eapply chosen_unique; [eassumption|]. apply chosen_more. assumption. Qed.
Print Assumptions C109_for_good.

(** Exactly the messages of the chosen transport have been performed, in order, as far as
    its bytes were read; what is unread still waits, and all bytes of the others. *)
Theorem C109_performed : forall r hw mem n present evs l s out tr, hub_running r hw mem n present evs s out tr -> brings_in n present evs l ->
  exists l1 l2 read ops, l = l1 ++ l2 /\ has_read l1 l2 read /\ history r hw mem ops (hb_app s) out /\ msgs ops = meanings [] l1 /\ frames_done ops <= shown evs /\
    (forall i, chosen n present evs i -> arrivals i evs = read ++ hb_queue s i /\ reads_of i tr = length read) /\ ((forall i, ~ chosen n present evs i) -> read = []) /\
    (forall j, ~ chosen n present evs j -> hb_queue s j = arrivals j evs).
Proof. exact hub_performs. Qed.
Print Assumptions C109_performed.

(** Once everything has been read, all its messages have been performed. *)
Theorem C109_all : forall r hw mem n present evs l s out tr i, hub_running r hw mem n present evs s out tr -> Forall msg_ok l -> chosen n present evs i ->
  arrivals i evs = stream l -> hb_queue s i = [] -> exists ops, history r hw mem ops (hb_app s) out /\ msgs ops = meanings [] l.
Proof. exact hub_all. Qed.
Print Assumptions C109_all.

(** Every reply goes to the chosen transport, each in one write: a pong or an instrument
    somebody asked for.  Without a chosen transport nothing is sent. *)
Theorem C109_replies : forall r hw mem n present evs l s out tr, hub_running r hw mem n present evs s out tr -> brings_in n present evs l ->
  exists ops, history r hw mem ops (hb_app s) out /\ ((forall i, ~ chosen n present evs i) -> sent out = []) /\
    forall i, chosen n present evs i -> concat (writes_to i tr) = sent out /\ Forall (fun w => w <> [] /\ exists m, In (AMsg m) ops /\ reply_ok m w) (writes_to i tr).
Proof. exact hub_replies. Qed.
Print Assumptions C109_replies.

(** The interface never stops at a fault; in particular it never writes before a
    transport is chosen (C70).  Partial: unless the sample channel is switched on (C48)
    or half a byte of an envelope uploaded (C27). *)
Theorem C109_runs_on_partial : forall r hw mem n present evs l, rom_ok r -> mem_ok mem -> brings_in n present evs l -> Forall calm (meanings [] l) ->
  exists s out tr, hub_running r hw mem n present evs s out tr.
Proof. exact hub_runs_on. Qed.
Print Assumptions C109_runs_on_partial.

(** Not every message that arrives while the interface is idle is performed: after one
    byte without meaning on transport 0, nothing sent over transport 1 is ever performed,
    whatever it is and however often the interface polls. *)
Theorem C109_every_transport_refuted : forall bs k, exists s out tr,
  hub_running (shipped false) no_cartridge blank_memory 5 all_there (stray_events bs k) s out tr /\
  arrivals 0 (stray_events bs k) = [0xFE] /\ arrivals 1 (stray_events bs k) = bs /\
  history (shipped false) no_cartridge blank_memory [] (hb_app s) out /\ hb_queue s 1%nat = bs.
Proof.
  intros bs k. destruct (stray_deaf bs k) as (s & out & tr & H & K). exists s, out, tr. split; [exact H|].
  split; [exact (proj1 (stray_arrivals bs k))|]. split; [exact (proj2 (stray_arrivals bs k))|exact K].
Qed.
Print Assumptions C109_every_transport_refuted.

(** The hypotheses hold with data on three transports, and a ping that is answered. *)
Example C109_nonvacuous : exists s out tr, hub_running (shipped false) no_cartridge blank_memory 5 all_there two_events s out tr /\ brings_in 5 all_there two_events [HubExampleProofs.a_ping] /\
  chosen 5 all_there two_events 2 /\ hb_queue s 2 = [] /\ hb_queue s 0 = [0x90; 60; 100] /\ hb_queue s 3 = [0x80] /\ writes_to 2 tr = [WifiExampleProofs.pong].
Proof. exact two_example. Qed.
