(** Concrete runs on the network. *)
From Verif Require Import Base BaseLemmas SynthModel SynthSpec MidiModel MidiSpec DevModel DevSpec AppModel AppSpec AppExampleProofs RxModel RxSpec MachineSpec NetModel NetSpec.
From Verif Require RtpSpec RtpExampleProofs NetExampleProofs.
From Verif Require Import WifiModel WifiSpec WifiProofs.
Import RtpSpec(Section_of, Item, Cmd, Sysex, rtp_packet).
Local Notation hdr := RtpExampleProofs.hdr0.

Definition listens : wevent := WTick [] true true.
Definition invited : wevent := WTick [CbRecv 1 (NetExampleProofs.control_from ++ NetExampleProofs.invitation)] true true.
Definition gets (sec : RtpSpec.section) : wevent := WTick [CbRecv 2 (NetExampleProofs.midi_from ++ rtp_packet hdr sec [])] true true.
Definition all_sent : wevent := WTick [CbSent] true true.

(** A program change and a note with running status for the second; a ping; two pings. *)
Definition song : RtpSpec.section := Section_of false false false false
  [Item [] false (Cmd 0xC0 [5]); Item [0] false (Cmd 0x90 [60; 100]); Item [0] true (Cmd 0x90 [64; 100])] [].
Definition ping : RtpSpec.section := Section_of false false false false [Item [] false (Sysex [0; 0x22; 0x77; 1])] [].
Definition pings : RtpSpec.section := Section_of false false false false [Item [] false (Sysex [0; 0x22; 0x77; 1]); Item [0] false (Sysex [0; 0x22; 0x77; 1])] [].
(** A MIDI clock and a program change. *)
Definition clocked : RtpSpec.section := Section_of false false false false [Item [] false (Cmd 0xF8 []); Item [0] false (Cmd 0xC0 [5])] [].

Ltac sec_ok :=
  split; [reflexivity|]; split; [RtpExampleProofs.bytes|]; split; [|split; [apply Forall_nil|reflexivity]]; split; [cbv; congruence|];
  cbn [RtpSpec.sec_items RtpSpec.sec_z RtpSpec.it_delta RtpSpec.it_cmd RtpSpec.rest_ok song ping pings clocked];
  repeat match goal with |- _ /\ _ => split end; try reflexivity; try RtpExampleProofs.delta; try RtpExampleProofs.cmd; try RtpExampleProofs.omitted; try exact Logic.I; left; reflexivity.
Lemma song_ok : RtpSpec.packet_ok hdr song []. Proof. sec_ok. Qed.
Lemma ping_ok : RtpSpec.packet_ok hdr ping []. Proof. sec_ok. Qed.
Lemma pings_ok : RtpSpec.packet_ok hdr pings []. Proof. sec_ok. Qed.
Lemma clocked_ok : RtpSpec.packet_ok hdr clocked []. Proof. sec_ok. Qed.
Ltac sec_handled := split; [reflexivity|]; split; [cbv; congruence|]; split; [repeat (apply Forall_cons; [RtpExampleProofs.handled_item|]); apply Forall_nil|apply Forall_nil].
Lemma song_handled : RtpSpec.handled song. Proof. sec_handled. Qed.
Lemma ping_handled : RtpSpec.handled ping. Proof. sec_handled. Qed.
Lemma pings_handled : RtpSpec.handled pings. Proof. sec_handled. Qed.

Definition the_song : list msg := [Program 0 5; NoteOn 0 60 100; NoteOn 0 64 100].
Definition a_ping : msg := SysEx [0; 0x22; 0x77; 1].
Lemma msgs_ok : Forall msg_ok the_song /\ Forall msg_ok [a_ping] /\ Forall msg_ok [a_ping; a_ping].
Proof.
  assert (P : msg_ok a_ping) by (split; [repeat (apply Forall_cons; [unfold data_ok; lia|]); apply Forall_nil|cbn; lia]).
  split; [repeat (apply Forall_cons; [cbn; unfold chan_ok, data_ok; lia|]); apply Forall_nil|]. split; repeat (apply Forall_cons; [exact P|]); apply Forall_nil.
Qed.
Lemma song_brings : brings 2 (rtp_packet hdr song []) the_song.
Proof. constructor; [exact song_ok|exact song_handled|reflexivity|apply msgs_ok|reflexivity]. Qed.
Lemma ping_brings : brings 2 (rtp_packet hdr ping []) [a_ping].
Proof. constructor; [exact ping_ok|exact ping_handled|reflexivity|apply msgs_ok|reflexivity]. Qed.
Lemma pings_brings : brings 2 (rtp_packet hdr pings []) [a_ping; a_ping].
Proof. constructor; [exact pings_ok|exact pings_handled|reflexivity|apply msgs_ok|reflexivity]. Qed.

Definition cb_okb (c : callback) : bool :=
  match c with CbRecv ch d => (0 <=? ch) && (ch <? 256) && forallb (fun b => (0 <=? b) && (b <? 256)) d && (6 <=? Z.of_nat (length d)) && (Z.of_nat (length d) <=? 1460) | _ => true end.
Definition wev_okb (e : wevent) : bool := match e with WTick cbs _ _ => forallb cb_okb cbs | WFrame d => (0 <=? d) && (d <? 65536) end.
Lemma evs_okb evs : forallb wev_okb evs = true -> Forall wev_ok evs.
Proof.
  intros H. apply Forall_forall. intros e He. apply (proj1 (forallb_forall _ _) H) in He. destruct e as [cbs a b|d]; cbn [wev_okb wev_ok] in *; [|lia].
  apply Forall_forall. intros c Hc. apply (proj1 (forallb_forall _ _) He) in Hc. destruct c as [ch d| |]; [|exact Logic.I..]. cbn [cb_okb callback_ok] in *.
  repeat (apply andb_prop in Hc as [Hc ?]). split; [lia|]. split; [|lia]. apply Forall_forall. intros x Hx. unfold RtpSpec.byte.
  match goal with K : forallb _ d = true |- _ => apply (proj1 (forallb_forall _ _) K) in Hx end. cbn beta in Hx. lia.
Qed.
Ltac evs_ok := apply evs_okb; vm_compute; reflexivity.

(** ** C103 *)
Definition song_events : list wevent := [listens; invited; all_sent; WFrame 1; gets song; WFrame 1].
Definition song_ops : list aop := AFrame :: told the_song ++ [AFrame].
Lemma song_asks : asks false song_events song_ops.
Proof.
  unfold song_events, song_ops, listens, invited, all_sent, gets. apply as_deaf. apply (as_got _ true true 1 (NetExampleProofs.control_from ++ NetExampleProofs.invitation) [] _ (AFrame :: told the_song ++ [AFrame])); [reflexivity|constructor; lia|].
  apply as_quiet; [reflexivity|]. apply as_frame. eapply as_got; [reflexivity|exact song_brings|]. apply as_frame. apply as_none.
Qed.
Lemma song_events_ok : Forall wev_ok song_events. Proof. evs_ok. Qed.
Lemma c103_example : exists s out radio, on_air (shipped false) no_cartridge blank_memory song_events s out radio /\ asks false song_events song_ops /\
  key_state out 0 = Some true.
Proof.
  destruct (app_see false song_ops (fun s tr => key_state tr 0) (Some true)) as (a & out & H & C); [reflexivity|vm_compute; reflexivity|].
  destruct (on_air_can _ _ _ song_events song_ops a out H song_events_ok song_asks) as (s & radio & O & _). exists s, out, radio. split; [exact O|]. split; [exact song_asks|]. exact C.
Qed.

(** ** C104, C105 *)
Definition booted_to {V} (x : res app unit) (k : app -> list event -> option V) : option V := match x with Done _ a oa => k a oa | Fault _ => None end.
Definition ran_to {V} (x : wres) (k : wifi -> list event -> list nev -> V) : option V := match x with WfDone s o n => Some (k s o n) | WfFault _ => None end.
Lemma booted_to_inv {V} x (k : app -> list event -> option V) v : booted_to x k = Some v -> exists a oa, x = Done tt a oa /\ k a oa = Some v.
Proof. destruct x as [[] a oa|]; [|discriminate]. intros H. exists a, oa. split; [reflexivity|exact H]. Qed.
Lemma ran_to_inv {V} x (k : wifi -> list event -> list nev -> V) v : ran_to x k = Some v -> exists s o n, x = WfDone s o n /\ k s o n = v.
Proof. destruct x as [s o n|]; [|discriminate]. intros H. injection H as H. exists s, o, n. split; [reflexivity|exact H]. Qed.
Lemma wifi_seen {V} r hw mem evs (view : wifi -> list event -> list nev -> V) v : rom_ok r -> mem_ok mem -> Forall wev_ok evs ->
  booted_to (app_boot r hw mem []) (fun a oa => ran_to (w_run r evs (wifi_start a)) (fun s ob radio => view s (oa ++ ob) radio)) = Some v ->
  exists s out radio, on_air r hw mem evs s out radio /\ view s out radio = v.
Proof.
  intros Hr Hm He H. apply booted_to_inv in H as (a & oa & E & H). apply ran_to_inv in H as (s & ob & radio & W & H). exists s, (oa ++ ob), radio. split; [|exact H].
  split; [exact Hr|]. split; [exact Hm|]. split; [exact He|]. exists a, oa, ob. split; [exact E|]. split; [exact W|reflexivity].
Qed.
Lemma wifi_see {V} evs (view : wifi -> list event -> list nev -> V) v : forallb wev_okb evs = true -> 
  booted_to (app_boot (shipped false) no_cartridge blank_memory []) (fun a oa => ran_to (w_run (shipped false) evs (wifi_start a)) (fun s ob radio => view s (oa ++ ob) radio)) = Some v ->
  exists s out radio, on_air (shipped false) no_cartridge blank_memory evs s out radio /\ view s out radio = v.
Proof. intros He. exact (wifi_seen (shipped false) no_cartridge blank_memory evs view v (shipped_ok false) blank_memory_ok (evs_okb evs He)). Qed.

Definition pong : list Z := [0xF0; 0x00; 0x22; 0x77; 0x02; 0xF7].
Definition ends_with (d tail : list Z) : bool := if list_eq_dec Z.eq_dec (skipn (length d - length tail) d) tail then true else false.
Definition ping_events : list wevent := [listens; gets ping; listens].
Lemma ping_asks : asks false ping_events (told [a_ping]).
Proof.
  unfold ping_events, listens, gets. apply as_deaf. rewrite <- (app_nil_r (told [a_ping])). eapply as_got; [reflexivity|exact ping_brings|].
  apply as_quiet; [reflexivity|]. apply as_none.
Qed.
Lemma pong_read d p : ends_with d p = true -> exists h, d = h ++ p.
Proof.
  unfold ends_with. destruct (list_eq_dec _ _ _) as [E|]; [|discriminate]. intros _. exists (firstn (length d - length p) d). rewrite <- E at 2. symmetry. apply firstn_skipn.
Qed.
Lemma c104_example : exists s out radio h, on_air (shipped false) no_cartridge blank_memory ping_events s out radio /\ asks false ping_events (told [a_ping]) /\
  DevSpec.sent out = pong /\ In (2, h ++ pong) (handed_over radio).
Proof.
  destruct (wifi_see ping_events (fun s out radio => (DevSpec.sent out, map (fun x => (fst x, ends_with (snd x) pong)) (handed_over radio))) (pong, [(2, true)])) as (s & out & radio & O & V);
    [vm_compute; reflexivity|vm_compute; reflexivity|].
  injection V as V1 V2. destruct (handed_over radio) as [|[c d] [|]] eqn:E; try discriminate. cbn [map fst snd] in V2. injection V2 as -> V2.
  apply pong_read in V2 as (h & ->). exists s, out, radio, h. split; [exact O|]. split; [exact ping_asks|]. split; [exact V1|]. rewrite E. left. reflexivity.
Qed.

(** Two pings in one packet: the second pong is never sent. *)
Definition pings_events : list wevent := [listens; gets pings; listens; all_sent; listens; listens].
Lemma pings_asks : asks false pings_events (told [a_ping; a_ping]).
Proof.
  unfold pings_events, listens, gets, all_sent. apply as_deaf. rewrite <- (app_nil_r (told [a_ping; a_ping])). eapply as_got; [reflexivity|exact pings_brings|].
  do 4 (apply as_quiet; [reflexivity|]). apply as_none.
Qed.
Lemma c104_lost : exists s out radio h, on_air (shipped false) no_cartridge blank_memory pings_events s out radio /\ asks false pings_events (told [a_ping; a_ping]) /\
  DevSpec.sent out = pong ++ pong /\ handed_over radio = [(2, h ++ pong)] /\ in_flight radio = None /\ length h = 13%nat.
Proof.
  destruct (wifi_see pings_events (fun s out radio => (DevSpec.sent out, map (fun x => (fst x, ends_with (snd x) pong, length (snd x))) (handed_over radio), in_flight radio)) (pong ++ pong, [(2, true, 19%nat)], None)) as (s & out & radio & O & V);
    [vm_compute; reflexivity|vm_compute; reflexivity|].
  injection V as V1 V2 V3. destruct (handed_over radio) as [|[c d] [|]] eqn:E; try discriminate. cbn [map fst snd] in V2. injection V2 as -> V2 V4.
  apply pong_read in V2 as (h & ->). exists s, out, radio, h. split; [exact O|]. split; [exact pings_asks|]. split; [exact V1|]. split; [exact E|]. split; [exact V3|].
  rewrite app_length in V4. cbn in V4. lia.
Qed.

(** A clock and a program change in one packet stop the interface for good. *)
Lemma c105_witness : RtpSpec.packet_ok hdr clocked [] /\ RtpSpec.stream clocked = RxSpec.stream [RealTime 0xF8; Program 0 5] /\
  exists s out radio, forall later, Forall wev_ok later -> on_air (shipped false) no_cartridge blank_memory ([listens; gets clocked] ++ later) s out radio.
Proof.
  split; [exact clocked_ok|]. split; [reflexivity|].
  destruct (wifi_see [listens; gets clocked] (fun s _ _ => waiting s) true) as (s & out & radio & O & W); [vm_compute; reflexivity|vm_compute; reflexivity|].
  exists s, out, radio. intros later Hl. exact (air_stuck _ _ _ _ later _ _ _ O W Hl).
Qed.
