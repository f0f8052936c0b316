(** Concrete network histories. *)
From Verif Require Import Base BaseLemmas RingBufModel RtpModel AppleModel NetModel RtpSpec NetSpec AppleSpec NetProofs AppleProofs NetReplyProofs.

Definition run_trace (ops : list nop) : option (list nev) := match net_run ops net_boot with NDone _ _ tr => Some tr | NFault _ => None end.
Lemma run_history ops tr : Forall nop_ok ops -> run_trace ops = Some tr -> exists s, nhistory ops s tr.
Proof. intros H E. unfold run_trace in E. destruct (net_run ops net_boot) as [[] s o|] eqn:R; [|discriminate]. injection E as <-. exists s. split; assumption. Qed.

Definition honestb (tr : list nev) : bool :=
  snd (fold_left (fun '(p, b) e => (in_flight1 p e, b && match e, p with NSent, None => false | _, _ => true end)) tr (None, true)).
Lemma honestb_ok tr : honestb tr = true -> honest tr.
Proof.
  intros H x y E. intros F. unfold honestb in H. subst tr. rewrite fold_left_app in H. cbn [fold_left] in H.
  assert (K : forall l p b, fst (fold_left (fun '(p, b) e => (in_flight1 p e, b && match e, p with NSent, None => false | _, _ => true end)) l (p, b)) = fold_left in_flight1 l p).
  { clear. induction l as [|e l IH]; intros p b; [reflexivity|]. cbn [fold_left]. apply IH. }
  assert (L : forall l p, snd (fold_left (fun '(p, b) e => (in_flight1 p e, b && match e, p with NSent, None => false | _, _ => true end)) l (p, false)) = false).
  { clear. induction l as [|e l IH]; intros p; [reflexivity|]. cbn [fold_left]. apply IH. }
  specialize (K x None true). fold (in_flight x) in K. rewrite F in K.
  destruct (fold_left _ x (None, true)) as [p b]. cbn in K. subst p. rewrite andb_false_r, L in H. discriminate.
Qed.

Ltac all_bytes := repeat (apply Forall_cons; [unfold byte; lia|]); apply Forall_nil.
Ltac op_ok := cbn; repeat first [apply Forall_nil | apply Forall_cons | split | exact Logic.I | unfold byte; lia | cbn; lia].

(** A peer at 192.168.1.2, ports 5004 and 5005. *)
Definition control_from : list Z := [192; 168; 1; 2; 19; 140].
Definition midi_from : list Z := [192; 168; 1; 2; 19; 141].
Definition invitation : list Z := [0xFF; 0xFF; 73; 78; 0; 0; 0; 2; 0xF9; 0x15; 1; 2; 9; 9; 9; 9; 77; 97; 99; 0].
Definition sync (l3 l2 l1 l0 : Z) : list Z :=
  [0xFF; 0xFF; 67; 75; 9; 9; 9; 9; 0; 0; 0; 0; 0; 0; 0; 1; l3; l2; l1; l0] ++ repeat 0 16.
Definition note_packet : list Z := [0x80; 0x61; 0x12; 0x34; 0; 0; 0; 0; 9; 9; 9; 9; 3; 0x90; 60; 100].
Definition goodbye : list Z := [0xFF; 0xFF; 66; 89; 0; 0; 0; 2; 0xF9; 0x15; 1; 2; 9; 9; 9; 9].
Definition listen : nop := NTick [] true true.
Definition from_control (d : list Z) : nop := NTick [CbRecv 1 (control_from ++ d)] true true.
Definition from_midi (d : list Z) : nop := NTick [CbRecv 2 (midi_from ++ d)] true true.
Definition sent : nop := NTick [CbSent] true true.

(** ** C58 *)
Lemma c58_verdicts : verdict 1 invitation = PKT_OK /\ reply 1 invitation = Some (acceptance [0xF9; 0x15; 1; 2]) /\
  reply 2 (sync 0 0 0 5) = Some (sync_answer (sync 0 0 0 5)) /\ field 24 4 (sync_answer (sync 0 0 0 5)) = [0; 0; 0; 15] /\
  verdict 1 note_packet = PKT_INVALID_SIGNATURE /\ ends_session 1 goodbye = true.
Proof. repeat split; vm_compute; reflexivity. Qed.

Lemma c58_tick : exists s tr s' o, nhistory [listen] s tr /\ net_step (from_control invitation) s = NDone tt s' o /\ honest (tr ++ o) /\
  in_flight tr = None /\ accepted tr = handed_over tr /\
  o = [NGot 1 invitation; NQueued 1 (acceptance [0xF9; 0x15; 1; 2]); NSend 1 (control_from ++ acceptance [0xF9; 0x15; 1; 2]) true; NArmed true].
Proof.
  destruct (run_history [listen] [NArmed true]) as [s Hs]; [op_ok|vm_compute; reflexivity|].
  destruct (run_history ([listen] ++ [from_control invitation])
    ([NArmed true] ++ [NGot 1 invitation; NQueued 1 (acceptance [0xF9; 0x15; 1; 2]); NSend 1 (control_from ++ acceptance [0xF9; 0x15; 1; 2]) true; NArmed true])) as [s' H']; [op_ok|vm_compute; reflexivity|].
  apply history_step in H'. destruct H' as (s1 & tr1 & o & H1 & _ & E & T).
  assert (NDone tt s [NArmed true] = NDone tt s1 tr1) as K by (destruct Hs as [_ <-]; destruct H1 as [_ <-]; reflexivity).
  injection K as <- <-. apply app_inv_head in T. subst o.
  exists s, [NArmed true], s'. eexists. split; [exact Hs|]. split; [exact E|]. split; [apply honestb_ok; vm_compute; reflexivity|]. repeat split.
Qed.

(** An invitation arriving while a packet is on its way out is never answered. *)
Definition busy_history : list nop := [listen; NWrite [0x90; 60; 100]; listen; from_control invitation; sent; listen; listen].
Lemma c58_busy : exists s tr, nhistory busy_history s tr /\ honest tr /\ In (NGot 1 invitation) tr /\
  reply 1 invitation <> None /\ forall p, ~ In (1, p) (accepted tr).
Proof.
  destruct (run_trace busy_history) as [tr|] eqn:E; [|vm_compute in E; discriminate].
  destruct (run_history busy_history tr) as [s H]; [op_ok|exact E|]. exists s, tr. split; [exact H|].
  vm_compute in E. injection E as <-.
  split; [apply honestb_ok; vm_compute; reflexivity|]. split; [cbn; tauto|]. split; [vm_compute; discriminate|].
  intros p Hp. cbn in Hp. destruct Hp as [Hp|[]]. discriminate.
Qed.

(** The time given back lies before the time it answers. *)
Lemma c58_clock : exists d p, process_session_midi_packet d (Z.of_nat (length d)) apple_init = ADone PKT_OK false [(2, p)] (mkApple 0 1 4) /\
  field 12 8 p = field 12 8 d /\ word32 (field 20 8 p) = 0x100000004 /\ word32 (field 12 8 d) = 0x1FFFFFFFA.
Proof. exists (sync 0xFF 0xFF 0xFF 0xFA). eexists. split; [vm_compute; reflexivity|]. repeat split; vm_compute; reflexivity. Qed.

(** ** C59 *)
Definition send_history : list nop := [listen; from_control invitation; sent; NWrite [0x90; 60; 100]; listen].
Definition own_packet : list Z := [0x80; 0x61; 0; 1; 0; 0; 0; 0; 0x9E; 0x91; 0x51; 0x50; 3; 0x90; 60; 100].
Lemma c59_example : exists s tr, nhistory send_history s tr /\ honest tr /\ in_flight tr = Some (midi_from ++ own_packet) /\
  accepted tr = [(1, acceptance [0xF9; 0x15; 1; 2]); (2, own_packet)].
Proof.
  destruct (run_trace send_history) as [tr|] eqn:E; [|vm_compute in E; discriminate].
  destruct (run_history send_history tr) as [s H]; [op_ok|exact E|]. exists s, tr. split; [exact H|].
  vm_compute in E. injection E as <-. split; [apply honestb_ok; vm_compute; reflexivity|]. split; reflexivity.
Qed.

Definition lost_history : list nop := [listen; NWrite [0x90; 60; 100]; NWrite [0x90; 64; 100]; listen; sent; listen; listen].
Lemma c59_lost : exists s tr, nhistory lost_history s tr /\ honest tr /\ accepted tr = [(2, own_packet)].
Proof.
  destruct (run_trace lost_history) as [tr|] eqn:E; [|vm_compute in E; discriminate].
  destruct (run_history lost_history tr) as [s H]; [op_ok|exact E|]. exists s, tr. split; [exact H|].
  vm_compute in E. injection E as <-. split; [apply honestb_ok; vm_compute; reflexivity|]. reflexivity.
Qed.

(** ** C60 *)
(** A stranger's packet, without any session: acknowledged to the stranger. *)
Definition stranger_history : list nop := [listen; from_midi note_packet; NVsync 10; listen; listen].
Lemma c60_stranger : exists s tr, nhistory stranger_history s tr /\ accepted tr = [(1, feedback_for 0x1234)] /\
  In (NSend 1 (control_from ++ feedback_for 0x1234) true) tr /\ forall d, ~ In (NGot 1 d) tr.
Proof.
  destruct (run_trace stranger_history) as [tr|] eqn:E; [|vm_compute in E; discriminate].
  destruct (run_history stranger_history tr) as [s H]; [op_ok|exact E|]. exists s, tr. split; [exact H|].
  vm_compute in E. injection E as <-. split; [reflexivity|]. split; [cbn; tauto|]. intros d Hd. cbn in Hd. intuition discriminate.
Qed.

(** After the peer has said goodbye its last packet is still acknowledged, to
    address 0.0.0.0. *)
Definition goodbye_history : list nop := [listen; from_control invitation; sent; from_midi note_packet; from_control goodbye; NVsync 10; listen; listen].
Lemma c60_goodbye : exists s tr, nhistory goodbye_history s tr /\ honest tr /\
  exists a, tr = a ++ [NGot 1 goodbye; NArmed true; NFrames 10; NQueued 1 (feedback_for 0x1234); NSend 1 (repeat 0 6 ++ feedback_for 0x1234) true].
Proof.
  destruct (run_trace goodbye_history) as [tr|] eqn:E; [|vm_compute in E; discriminate].
  destruct (run_history goodbye_history tr) as [s H]; [op_ok|exact E|]. exists s, tr. split; [exact H|].
  vm_compute in E. injection E as <-. split; [apply honestb_ok; vm_compute; reflexivity|].
  eexists [_; _; _; _; _; _; _; _]. reflexivity.
Qed.
