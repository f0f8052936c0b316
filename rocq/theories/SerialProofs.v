From Verif Require Import Base BaseLemmas RingBufModel RingBufSpec RingBufProofs MidiModel RxModel RxSpec RxProofs SerialModel SerialSpec.

(** The serial state holds [q] waiting and the decoder at [st]. *)
Definition holds (s : serial) (q : list Z) (st : rx) : Prop :=
  ring_repr (sl_ring s) 512 q /\ sl_rx s = st /\ (q <> [] -> sl_recv s = true).

Lemma write_ring r q b : ring_repr r 512 q -> is_byte b -> (length q < 511)%nat ->
  exists r', ring_buf_write b r = Done RB_OK r' [] /\ ring_repr r' 512 (q ++ [b]).
Proof.
  intros Hr Hb Hl. destruct (ring_step_refines r 512 q (RWrite b) Hr Hb) as (r' & E & R).
  cbn [ring_step fifo_step] in *. change (Z.to_nat (512 - 1)) with 511%nat in *.
  destruct (Nat.ltb_spec (length q) 511) as [H|H]; [|lia]. cbn [fst snd] in *.
  exists r'. split; [|exact R]. unfold bind, ret in E.
  destruct (ring_buf_write b r) as [a r1 o|f]; [|discriminate].
  injection E as -> -> Eo. rewrite app_nil_r in Eo. subst. reflexivity.
Qed.

Lemma read_ring r x q : ring_repr r 512 (x :: q) ->
  exists r', serial_read r = Done x r' [] /\ ring_repr r' 512 q.
Proof.
  intros Hr. destruct (ring_step_refines r 512 (x :: q) RRead Hr I) as (r' & E & R).
  cbn [ring_step fifo_step fst snd] in *. exists r'. split; [|exact R].
  unfold serial_read. unfold bind, ret in E.
  destruct (ring_buf_read r) as [[st d] r1 o|f]; [|discriminate]. cbn [fst snd] in E.
  injection E as -> -> -> Eo. rewrite app_nil_r in Eo. subst. reflexivity.
Qed.

Lemma ready_ring r q : ring_repr r 512 q -> ring_buf_can_read r = match q with [] => false | _ => true end.
Proof.
  intros Hr. destruct (ring_step_refines r 512 q RCanRead Hr I) as (r' & E & _).
  cbn [ring_step fifo_step fst snd] in E. unfold bind, gets, ret in E. congruence.
Qed.

Lemma arrive_holds s q st b : holds s q st -> byte_ok b -> (length q < 511)%nat ->
  exists s', serial_arrive b s = SRan [] s' /\ holds s' (q ++ [b]) st.
Proof.
  intros (Hr & Hst & Hv) Hb Hl. destruct (write_ring (sl_ring s) q b Hr Hb Hl) as (r' & E & R).
  unfold serial_arrive. rewrite E. eexists. split; [reflexivity|]. repeat split; cbn; auto.
Qed.

Lemma poll_empty seq s st : holds s [] st -> serial_poll seq s = SRan [] s.
Proof.
  intros (Hr & _). unfold serial_poll, serial_read_ready. rewrite (ready_ring _ _ Hr).
  destruct (sl_recv s); reflexivity.
Qed.

Lemma poll_holds seq s x q st : holds s (x :: q) st ->
  match rx_byte (reset_action seq) st x with
  | Failed f => serial_poll seq s = SFailed f
  | Ran o st' => exists s', serial_poll seq s = SRan o s' /\ holds s' q st'
  end.
Proof.
  intros (Hr & <- & Hv). destruct (read_ring _ _ _ Hr) as (r' & E & R).
  unfold serial_poll, serial_read_ready. rewrite (ready_ring _ _ Hr), Hv by discriminate. cbn [negb].
  rewrite E. destruct (rx_byte (reset_action seq) (sl_rx s) x) as [o st'|f]; [|reflexivity].
  eexists. split; [reflexivity|]. repeat split; cbn; auto.
Qed.

(** Refinement: at every moment, what has been dispatched is what the decoder
    makes of the bytes read so far, and the rest is waiting. *)
Lemma serial_refines startup evs : startup_ok startup -> forall s q st,
  holds s q st -> match st with None => True | Some t => nf 257 t end ->
  Forall byte_ok (arrivals evs) -> backlog_within 511 (length q) evs -> (length q <= 511)%nat ->
  exists ops s' read wait st', serial_run (stream startup) evs s = SRan ops s' /\
    q ++ arrivals evs = read ++ wait /\
    receive (stream startup) st read = Ran ops st' /\ holds s' wait st' /\
    length wait = fold_left backlog_step evs (length q).
Proof.
  intros Hs. assert (Nr : nf 256 (reset_action (stream startup))).
  { unfold reset_action. rewrite startup_run by assumption. exact I. }
  induction evs as [|e evs IH]; intros s q st Hh Hn Ha Hb Hq.
  - exists [], s, [], q, st. cbn. rewrite app_nil_r. auto.
  - destruct Hb as (Hb1 & Hb2). destruct e as [b|]; cbn [backlog_step] in *.
    + assert (Ha' : byte_ok b /\ Forall byte_ok (arrivals evs))
        by (cbn in Ha; inversion Ha; auto).
      destruct Ha' as (Hbb & Ha').
      destruct (arrive_holds s q st b Hh Hbb ltac:(lia)) as (s1 & E1 & H1).
      destruct (IH s1 (q ++ [b]) st H1 Hn Ha') as (ops & s' & rd & wt & st' & E2 & Ea & Er & Hw & Hl).
      { rewrite app_length. cbn. rewrite Nat.add_1_r. exact Hb2. }
      { rewrite app_length. cbn. lia. }
      exists ops, s', rd, wt, st'. cbn [serial_run serial_step]. rewrite E1, E2.
      split; [reflexivity|]. split; [rewrite <- Ea, <- app_assoc; reflexivity|].
      split; [exact Er|]. split; [exact Hw|]. rewrite Hl, app_length, Nat.add_1_r. reflexivity.
    + change (arrivals (SPoll :: evs)) with (arrivals evs) in *.
      destruct q as [|x q].
      * destruct (IH s [] st Hh Hn Ha Hb2 ltac:(cbn; lia)) as (ops & s' & rd & wt & st' & E2 & Ea & Er & Hw & Hl).
        exists ops, s', rd, wt, st'. cbn [serial_run serial_step].
        rewrite (poll_empty (stream startup) s st Hh), E2. auto.
      * assert (P := poll_holds (stream startup) s x q st Hh).
        destruct (rx_total (reset_action (stream startup)) [x] Nr st Hn) as (o1 & st1 & E1).
        assert (Hn1 : match st1 with None => True | Some t => nf 257 t end /\
                      rx_byte (reset_action (stream startup)) st x = Ran o1 st1).
        { cbn [rx_run] in E1. destruct (rx_byte (reset_action (stream startup)) st x) as [o2 st2|f] eqn:Eb; [|discriminate].
          rewrite app_nil_r in E1. injection E1 as -> ->. split; [|reflexivity].
          unfold rx_byte in Eb.
          assert (T : nf 257 (match st with None => read_message (reset_action (stream startup)) | Some t => t end)).
          { destruct st; [exact Hn|apply nf_message; exact Nr]. }
          destruct (match st with None => _ | Some t => t end) as [ops|k|f]; [injection Eb as _ <-; exact I| |discriminate].
          specialize (T x). destruct (k x) as [ops|k'|f]; [injection Eb as _ <-; exact I| |discriminate].
          injection Eb as _ <-. apply (nf_mono 256 (RdByte k')); [exact T|lia]. }
        destruct Hn1 as (Hn1 & Eb). rewrite Eb in P. destruct P as (s1 & Ep & Hp).
        destruct (IH s1 q st1 Hp Hn1 Ha Hb2 ltac:(cbn in Hq; lia)) as (ops & s' & rd & wt & st' & E2 & Ea & Er & Hw & Hl).
        exists (o1 ++ ops), s', (x :: rd), wt, st'. cbn [serial_run serial_step]. rewrite Ep, E2.
        split; [reflexivity|]. split; [cbn; rewrite Ea; reflexivity|].
        split; [|split; [exact Hw|exact Hl]].
        unfold receive in *. cbn [rx_run]. rewrite Eb, Er. reflexivity.
Qed.

Lemma start_holds arr : (512 <= length arr)%nat -> holds (serial_start arr) [] None.
Proof.
  intros H. split; [apply ring_init_repr; lia|]. split; [reflexivity|]. congruence.
Qed.

Lemma encode_bytes l : Forall msg_ok l -> Forall byte_ok (stream l).
Proof.
  intros H. unfold stream. apply Forall_flat_map. eapply Forall_impl; [|exact H].
  intros m Hm. unfold byte_ok.
  destruct m; cbn [msg_ok encode] in *; unfold chan_ok, data_ok in *;
    try (repeat apply Forall_cons; try apply Forall_nil; lia).
  destruct Hm as (Hb & _). apply Forall_cons; [lia|]. apply Forall_app. split.
  - eapply Forall_impl; [|exact Hb]. cbn beta. intros; lia.
  - repeat constructor; lia.
Qed.

(** C05, at every moment *)
Lemma c05_always startup arr evs : startup_ok startup -> (512 <= length arr)%nat ->
  Forall byte_ok (arrivals evs) -> backlog_within 511 0 evs ->
  exists ops s' read wait st', serial_run (stream startup) evs (serial_start arr) = SRan ops s' /\
    arrivals evs = read ++ wait /\ receive (stream startup) None read = Ran ops st' /\
    length wait = fold_left backlog_step evs 0%nat.
Proof.
  intros Hs Ha Hb Hw.
  destruct (serial_refines startup evs Hs (serial_start arr) [] None (start_holds arr Ha) I Hb Hw ltac:(cbn; lia))
    as (ops & s' & rd & wt & st' & E & Ea & Er & _ & Hl).
  exists ops, s', rd, wt, st'. auto.
Qed.

(** C05, when everything has been read *)
Lemma c05 startup arr evs l : startup_ok startup -> (512 <= length arr)%nat -> Forall msg_ok l ->
  arrivals evs = stream l -> backlog_within 511 0 evs -> fold_left backlog_step evs 0%nat = 0%nat ->
  exists s', serial_run (stream startup) evs (serial_start arr) = SRan (meanings (meanings [] startup) l) s'.
Proof.
  intros Hs Ha Hl Ee Hw Hz.
  destruct (c05_always startup arr evs Hs Ha) as (ops & s' & rd & wt & st' & E & Ea & Er & Hn);
    [rewrite Ee; apply encode_bytes; assumption|assumption|].
  rewrite Hz in Hn. destruct wt; [|discriminate]. rewrite app_nil_r in Ea. subst rd.
  rewrite Ee, c03 in Er by assumption. injection Er as <- _. exists s'. exact E.
Qed.

(** Polling enough times always gets there. *)
Lemma polls_drain n k : fold_left backlog_step (repeat SPoll k) n = (n - k)%nat.
Proof. revert n; induction k as [|k IH]; intros n; cbn; [lia|]. rewrite IH. lia. Qed.
Lemma backlog_polls cap n k : (n <= cap)%nat -> backlog_within cap n (repeat SPoll k).
Proof. revert n; induction k as [|k IH]; intros n H; cbn; [exact I|]. split; [lia|apply IH; lia]. Qed.
Lemma backlog_app cap evs : forall n evs', backlog_within cap n evs ->
  backlog_within cap (fold_left backlog_step evs n) evs' -> backlog_within cap n (evs ++ evs').
Proof. induction evs; cbn; intros n evs' H1 H2; [exact H2|]. split; [tauto|apply IHevs; tauto]. Qed.
Lemma backlog_bound cap evs : forall n, (n <= cap)%nat -> backlog_within cap n evs -> (fold_left backlog_step evs n <= cap)%nat.
Proof. induction evs as [|e evs IH]; cbn; intros n Hn H; [exact Hn|]. apply IH; tauto. Qed.
Lemma arrivals_app a b : arrivals (a ++ b) = arrivals a ++ arrivals b.
Proof. apply flat_map_app. Qed.
Lemma arrivals_polls k : arrivals (repeat SPoll k) = [].
Proof. induction k; cbn; auto. Qed.

Lemma c05_drained startup arr evs l : startup_ok startup -> (512 <= length arr)%nat -> Forall msg_ok l ->
  arrivals evs = stream l -> backlog_within 511 0 evs ->
  exists s', serial_run (stream startup) (evs ++ repeat SPoll 511) (serial_start arr)
             = SRan (meanings (meanings [] startup) l) s'.
Proof.
  intros Hs Ha Hl Ee Hw. assert (B := backlog_bound 511 evs 0%nat ltac:(lia) Hw). apply c05; auto.
  - rewrite arrivals_app, arrivals_polls, app_nil_r. exact Ee.
  - apply backlog_app; [assumption|]. apply backlog_polls. exact B.
  - rewrite fold_left_app, polls_drain. lia.
Qed.

(** Beyond the limit a byte is lost. *)
Definition overflow_msgs : list msg := repeat TuneRequest 511 ++ [NoteOn 0 60 100].
Lemma c05_overflow : exists evs s',
  arrivals evs = stream overflow_msgs /\ Forall msg_ok overflow_msgs /\
  serial_run [] (evs ++ repeat SPoll 600) (serial_start (repeat 0 512)) = SRan [] s' /\
  meanings [] overflow_msgs = [MNoteOn 0 60 100].
Proof.
  exists (map SArrive (stream overflow_msgs)). eexists.
  split; [vm_compute; reflexivity|]. split.
  - apply Forall_app. split; [|repeat constructor; unfold chan_ok, data_ok; lia].
    apply Forall_forall. intros m Hm. apply repeat_spec in Hm. subst. exact I.
  - split; vm_compute; reflexivity.
Qed.
Lemma c05_example :
  let evs := [SPoll; SArrive 0x92; SPoll; SPoll; SArrive 64; SArrive 90; SArrive 0xC3; SPoll; SPoll; SArrive 7; SPoll; SPoll] in
  arrivals evs = stream [NoteOn 2 64 90; Program 3 7] /\ backlog_within 511 0 evs /\
  fold_left backlog_step evs 0%nat = 0%nat.
Proof. split; [reflexivity|]. split; [|reflexivity]. cbn. repeat split; lia. Qed.
