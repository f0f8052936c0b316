(** Two transports with data. *)
From Verif Require Import Base BaseLemmas MidiModel MidiSpec RxModel RxSpec DevModel DevSpec AppModel AppSpec AppExampleProofs CommModel CommSpec MachineSpec HubModel HubSpec HubProofs.
From Verif Require WifiExampleProofs.
Import WifiExampleProofs(booted_to, booted_to_inv, pong).

Definition all_there : nat -> bool := fun _ => true.
Definition a_ping : msg := SysEx [0x00; 0x22; 0x77; 0x01].
(** A ping on the serial port (2); when its first byte has been read, a note on
    transport 0 and its release on transport 3. *)
Definition two_events : list hevent :=
  [HFrame 1; HPoll; HArrive 2 0xF0; HPoll; HArrive 0 0x90; HArrive 0 60; HArrive 0 100; HArrive 2 0x00; HPoll; HPoll; HFrame 1; HArrive 2 0x22; HArrive 2 0x77; HArrive 3 0x80;
   HPoll; HPoll; HArrive 2 0x01; HPoll; HArrive 2 0xF7; HPoll; HPoll; HFrame 1].
Lemma two_chosen : chosen 5 all_there two_events 2.
Proof.
  exists [HFrame 1; HPoll; HArrive 2 0xF0]. eexists. split; [reflexivity|]. split; [split; [lia|split; [reflexivity|discriminate]]|]. split.
  - intros j Hj (_ & _ & D). apply D. destruct j as [|[|j]]; [reflexivity|reflexivity|lia].
  - intros pre post E j (_ & _ & D). apply D. destruct pre as [|x [|y [|z pre]]]; try discriminate; [injection E as <- _; reflexivity|].
    exfalso. injection E as _ _ E. destruct pre; discriminate.
Qed.
Lemma two_brings : brings_in 5 all_there two_events [a_ping].
Proof.
  split; [constructor; [split; [repeat (constructor; [unfold data_ok; lia|]); constructor|cbn; lia]|constructor]|].
  intros i C. rewrite (chosen_unique _ _ _ _ _ C two_chosen). exists []. reflexivity.
Qed.
Definition hub_to {V} (x : hres) (k : hub -> list event -> list cev -> V) : option V := match x with HbDone s o t => Some (k s o t) | HbFault _ => None end.
Lemma hub_to_inv {V} x (k : hub -> list event -> list cev -> V) v : hub_to x k = Some v -> exists s o t, x = HbDone s o t /\ k s o t = v.
Proof. destruct x as [s o t|]; [|discriminate]. intros H. injection H as H. exists s, o, t. split; [reflexivity|exact H]. Qed.
Lemma hub_see {V} n present evs (view : hub -> list event -> list cev -> V) v :
  booted_to (app_boot (shipped false) no_cartridge blank_memory []) (fun a oa => hub_to (hb_run (shipped false) n present evs (hub_start a)) (fun s ob tr => view s (oa ++ ob) tr)) = Some v ->
  exists s out tr, hub_running (shipped false) no_cartridge blank_memory n present evs s out tr /\ view s out tr = v.
Proof.
  intros H. apply booted_to_inv in H as (a & oa & E & H). apply hub_to_inv in H as (s & ob & tr & W & H). exists s, (oa ++ ob), tr. split; [|exact H].
  split; [exact (shipped_ok false)|]. split; [exact blank_memory_ok|]. exists a, oa, ob. split; [exact E|]. split; [exact W|reflexivity].
Qed.
Lemma two_example : exists s out tr, hub_running (shipped false) no_cartridge blank_memory 5 all_there two_events s out tr /\ brings_in 5 all_there two_events [a_ping] /\
  chosen 5 all_there two_events 2 /\ hb_queue s 2 = [] /\ hb_queue s 0 = [0x90; 60; 100] /\ hb_queue s 3 = [0x80] /\ writes_to 2 tr = [pong].
Proof.
  destruct (hub_see 5 all_there two_events (fun s out tr => (hb_queue s 2%nat, hb_queue s 0%nat, hb_queue s 3%nat, writes_to 2 tr)) ([], [0x90; 60; 100], [0x80], [pong])) as (s & out & tr & H & V); [vm_compute; reflexivity|].
  injection V as V1 V2 V3 V4. exists s, out, tr. split; [exact H|]. split; [exact two_brings|]. split; [exact two_chosen|]. auto.
Qed.

(** One byte on the first transport, and the second is never heard. *)
Definition stray_events (bs : list Z) (k : nat) : list hevent := [HArrive 0 0xFE; HPoll] ++ map (HArrive 1) bs ++ repeat HPoll k.
Lemma stray_chosen bs k : chosen 5 all_there (stray_events bs k) 0.
Proof.
  exists [HArrive 0 0xFE]. eexists. split; [reflexivity|]. split; [split; [lia|split; [reflexivity|discriminate]]|]. split; [lia|].
  intros pre post E. exfalso. destruct pre as [|x pre]; [discriminate|]. injection E as _ E. destruct pre; discriminate.
Qed.
Lemma arrivals_polls i k : arrivals i (repeat HPoll k) = [].
Proof. induction k; auto. Qed.
Lemma arrivals_same i bs : arrivals i (map (HArrive i) bs) = bs.
Proof. induction bs as [|b bs IH]; [reflexivity|]. cbn. rewrite Nat.eqb_refl. unfold arrivals in IH. rewrite IH. reflexivity. Qed.
Lemma arrivals_not i j bs : i <> j -> arrivals j (map (HArrive i) bs) = [].
Proof. intros N. induction bs as [|b bs IH]; [reflexivity|]. cbn. destruct (Nat.eqb_spec i j); [contradiction|exact IH]. Qed.
Lemma stray_arrivals bs k : arrivals 0 (stray_events bs k) = [0xFE] /\ arrivals 1 (stray_events bs k) = bs.
Proof.
  unfold stray_events. rewrite !arrivals_app, !arrivals_polls, arrivals_same, arrivals_not, !app_nil_r by discriminate. auto.
Qed.
Lemma shown_bytes i bs : shown (map (HArrive i) bs) = 0.
Proof. induction bs; auto. Qed.
Lemma shown_polls k : shown (repeat HPoll k) = 0.
Proof. induction k; auto. Qed.
Theorem stray_deaf bs k : exists s out tr, hub_running (shipped false) no_cartridge blank_memory 5 all_there (stray_events bs k) s out tr /\
  history (shipped false) no_cartridge blank_memory [] (hb_app s) out /\ hb_queue s 1%nat = bs.
Proof.
  destruct (stray_arrivals bs k) as (A0 & A1). assert (C := stray_chosen bs k).
  assert (B : brings_in 5 all_there (stray_events bs k) [RealTime 0xFE]).
  { split; [repeat constructor; cbn; lia|]. intros i Ci. rewrite (chosen_unique _ _ _ _ _ Ci C), A0. exists []. reflexivity. }
  destruct (hub_runs_on (shipped false) no_cartridge blank_memory 5 all_there _ _ (shipped_ok false) blank_memory_ok B (Forall_nil _)) as (s & out & tr & H).
  exists s, out, tr. split; [exact H|]. destruct (hub_performs _ _ _ _ _ _ _ _ _ _ H B) as (l1 & l2 & read & ops & E & _ & Hh & M & F & _ & _ & J). split.
  - assert (X : ops = []); [|rewrite X in Hh; exact Hh].
    assert (M0 : msgs ops = []). { rewrite M. destruct l1 as [|x [|y l1]]; [reflexivity| |destruct l1; discriminate]. injection E as <- _. reflexivity. }
    assert (F0 : frames_done ops <= 0). { replace 0 with (shown (stray_events bs k)); [exact F|]. unfold stray_events. rewrite !shown_app, shown_bytes, shown_polls. reflexivity. }
    assert (N : forall o, 0 <= frames_done o) by (intros o; induction o as [|[m|] o IH]; cbn [frames_done]; lia).
    destruct ops as [|[m|] ops]; [reflexivity|discriminate|]. cbn [frames_done] in F0. specialize (N ops). lia.
  - rewrite J; [exact A1|]. intros C1. discriminate (chosen_unique _ _ _ _ _ C1 C).
Qed.
