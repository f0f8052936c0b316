(** Proofs about the network transport. *)
From Verif Require Import Base BaseLemmas RingBufModel RtpModel AppleModel NetModel RtpSpec NetSpec.

Lemma nbind_inv {A B} (m : N A) (k : A -> N B) s b s' o : nbind m k s = NDone b s' o ->
  exists a s1 o1 o2, m s = NDone a s1 o1 /\ k a s1 = NDone b s' o2 /\ o = o1 ++ o2.
Proof.
  unfold nbind. destruct (m s) as [a s1 o1|]; [|discriminate]. destruct (k a s1) as [b' s2 o2|] eqn:E; [|discriminate].
  intros [= <- <- <-]. exists a, s1, o1, o2. repeat split. exact E.
Qed.
Lemma nthen_inv m k s s' o : nthen m k s = NDone tt s' o ->
  exists s1 o1 o2, m s = NDone tt s1 o1 /\ k s1 = NDone tt s' o2 /\ o = o1 ++ o2.
Proof. intros H. apply nbind_inv in H. destruct H as ([] & s1 & o1 & o2 & H1 & H2 & H3). exists s1, o1, o2. repeat split; assumption. Qed.
Lemma get_eq {A} (k : net -> N A) s : nbind nget k s = k s s.
Proof. unfold nbind, nget. destruct (k s s); reflexivity. Qed.

(** ** Well-formed states and atomic effects *)
Definition nwf (s : net) : Prop :=
  length (n_rx_buf s) = 1460%nat /\ length (n_tx_buf s) = 1460%nat /\ 0 <= n_tx_len s <= 1454 /\ 0 <= ap_seq (n_apple s) < 65536 /\
  Forall byte (n_rx_buf s) /\ (n_rx s = RX_BUFFERED -> 0 <= n_rx_len s <= 1454).

Lemma splice_length buf i data : (Z.to_nat i + length data <= length buf)%nat -> length (splice buf i data) = length buf.
Proof. intros H. unfold splice. rewrite !app_length, firstn_length, skipn_length. lia. Qed.
Lemma splice_forall P buf i data : Forall P buf -> Forall P data -> Forall P (splice buf i data).
Proof.
  intros H1 H2. unfold splice. rewrite <- (firstn_skipn (Z.to_nat i) buf) in H1. apply Forall_app. split; [apply Forall_app in H1; apply H1|].
  apply Forall_app. split; [assumption|]. apply Forall_app in H1. destruct H1 as [_ H1].
  rewrite <- (firstn_skipn (length data) (skipn (Z.to_nat i) buf)) in H1. apply Forall_app in H1. destruct H1 as [_ H1].
  replace (skipn (Z.to_nat i + length data) buf) with (skipn (length data) (skipn (Z.to_nat i) buf)); [assumption|].
  clear. revert buf. induction (Z.to_nat i) as [|n IH]; intros buf; [reflexivity|]. destruct buf; cbn [skipn Nat.add]; [destruct (length data); reflexivity|apply IH].
Qed.

Inductive atom (s : net) : list nev -> net -> Prop :=
| at_emit d r : atom s [] (set_emit d r s)
| at_queue ch data : n_tx s = TX_IDLE -> Z.of_nat (length data) <= 1454 -> ~ is_feedback ch data ->
    atom s [NQueued ch data] (set_tx TX_QUEUED ch (Z.of_nat (length data)) (splice (n_tx_buf s) 6 data) s)
| at_endpoint c ip cp mp : atom s [] (set_endpoint c ip cp mp s)
| at_rx x ch len b : length b = 1460%nat -> Forall byte b -> (x = RX_BUFFERED -> 0 <= len <= 1454) -> atom s [] (set_rx x ch len b s)
| at_sent : atom s [NSent] (set_tx_state TX_IDLE s)
| at_got ch d a : ap_seq a = last_seq1 (ap_seq (n_apple s)) (NGot ch d) -> 0 <= ap_seq a < 65536 -> atom s [NGot ch d] (set_apple a s)
| at_send ok port : n_tx s = TX_QUEUED -> port = (if n_tx_ch s =? 1 then n_control_port s else n_midi_port s) ->
    let buf := splice (n_tx_buf s) 0 (to_be32 (n_ip s) ++ [u8 (port / 256); u8 port]) in
    atom s [NSend (n_tx_ch s) (firstn (Z.to_nat (n_tx_len s + 6)) buf) ok]
      (set_endpoint true (n_ip s) (n_control_port s) (n_midi_port s) (set_tx (if ok then TX_INFLIGHT else TX_IDLE) (n_tx_ch s) (n_tx_len s) buf s))
| at_feedback : n_tx s = TX_IDLE -> 10 <= n_frame s -> n_last_seq s <> ap_seq (n_apple s) ->
    atom s [NQueued 1 (receiver_feedback (n_apple s))]
      (set_feedback 0 (ap_seq (n_apple s)) (set_tx TX_QUEUED 1 12 (splice (n_tx_buf s) 6 (receiver_feedback (n_apple s))) s))
| at_no_feedback : 10 <= n_frame s -> atom s [] (set_feedback 0 (n_last_seq s) s)
| at_frames d : 0 <= d -> atom s [NFrames d] (set_feedback (u16 (n_frame s + d)) (n_last_seq s) s)
| at_armed ok : atom s [NArmed ok] s
| at_seq q : atom s [] (set_send_seq q s).

Inductive reach (s : net) : list nev -> net -> Prop :=
| r_none : reach s [] s
| r_more o1 s1 o2 s2 : atom s o1 s1 -> reach s1 o2 s2 -> reach s (o1 ++ o2) s2.

Lemma reach_app s o1 s1 o2 s2 : reach s o1 s1 -> reach s1 o2 s2 -> reach s (o1 ++ o2) s2.
Proof. induction 1; intros H2; [exact H2|]. rewrite <- app_assoc. econstructor; eauto. Qed.
Lemma reach_one s o s1 : atom s o s1 -> reach s o s1.
Proof. intros H. rewrite <- (app_nil_r o). econstructor; [exact H|constructor]. Qed.

Lemma atom_wf s o s' : nwf s -> atom s o s' -> nwf s'.
Proof.
  intros (R & T & L & A & B & X) H. destruct H; (split; [|split; [|split; [|split; [|split]]]]); unfold set_tx_state; cbn -[splice to_be32 u8 receiver_feedback]; try assumption; try lia;
    try subst buf; rewrite splice_length; try assumption; cbn; lia.
Qed.
Lemma reach_wf s o s' : nwf s -> reach s o s' -> nwf s'.
Proof. intros H R. induction R; [assumption|]. apply IHR. eapply atom_wf; eauto. Qed.

(** ** The program makes only such moves *)
Definition moves (m : N unit) : Prop := forall s s' o, nwf s -> m s = NDone tt s' o -> reach s o s'.

Lemma moves_ret : moves (nret tt).
Proof. intros s s' o _ [= <- <-]. constructor. Qed.
Lemma moves_then m k : moves m -> moves k -> moves (nthen m k).
Proof.
  intros Hm Hk s s' o W H. apply nthen_inv in H. destruct H as (s1 & o1 & o2 & H1 & H2 & ->).
  pose proof (Hm _ _ _ W H1) as R. eapply reach_app; [exact R|]. eapply Hk; [eapply reach_wf; eauto|exact H2].
Qed.

Lemma moves_send ch data : ~ is_feedback ch data -> moves (net_send ch data).
Proof.
  intros F s s' o W. unfold net_send. rewrite get_eq. destruct (n_tx s) eqn:E; try (intros [= <- <-]; constructor).
  unfold MW_RX_TX_BUFFER_SIZE, REUSE_PAYLOAD_HEADER_LEN. destruct (1460 <? _) eqn:E1; [intros [= <- <-]; constructor|].
  unfold nthen, nbind, nmod, nlog. intros [= <- <-]. apply reach_one. apply at_queue; [assumption|lia|assumption].
Qed.
Lemma moves_send_all l : Forall (fun p => ~ is_feedback (fst p) (snd p)) l -> moves (send_all l).
Proof. induction 1 as [|[ch d] l H _ IH]; [apply moves_ret|]. cbn [send_all]. apply moves_then; [apply moves_send; exact H|exact IH]. Qed.
Lemma moves_emit b : moves (emit_callback b).
Proof. intros s s' o W. unfold emit_callback. destruct (ring_buf_write b (n_ring s)); [|discriminate]. intros [= <- <-]. apply reach_one, at_emit. Qed.
Lemma moves_emit_all l : moves (emit_all l).
Proof. induction l as [|b l IH]; [apply moves_ret|]. cbn [emit_all]. apply moves_then; [apply moves_emit|exact IH]. Qed.

Lemma invitation_not_feedback ch token : ~ is_feedback ch (pack_invitation_response token).
Proof. intros [_ [d E]]. discriminate E. Qed.
Lemma midi_port_not_feedback d : ~ is_feedback CH_MIDI_PORT d.
Proof. intros [E _]. discriminate E. Qed.

(** The answers to session packets. *)
Lemma invitation_sends ch buffer len a code e sends a' : process_invitation ch buffer len a = ADone code e sends a' ->
  a' = a /\ e = false /\ Forall (fun p => ~ is_feedback (fst p) (snd p)) sends.
Proof.
  unfold process_invitation. destruct (len <? _); [intros [= <- <- <- <-]; repeat split; apply Forall_nil|].
  destruct (copy_in _ _) as [p|]; [|discriminate]. destruct (negb _); intros [= <- <- <- <-]; repeat split; try apply Forall_nil.
  apply Forall_cons; [apply invitation_not_feedback|apply Forall_nil].
Qed.
Lemma sync_sends buffer len a code e sends a' : process_timestamp_sync buffer len a = ADone code e sends a' ->
  ap_seq a' = ap_seq a /\ e = false /\ Forall (fun p => ~ is_feedback (fst p) (snd p)) sends.
Proof.
  unfold process_timestamp_sync. destruct (len <? _); [intros [= <- <- <- <-]; repeat split; apply Forall_nil|].
  destruct (copy_in _ _) as [p|]; [|discriminate]. destruct (negb _); [intros [= <- <- <- <-]; repeat split; apply Forall_nil|].
  do 36 (destruct p as [|? p]; [discriminate|]). destruct p; [|discriminate].
  destruct (_ =? 0); intros [= <- <- <- <-]; repeat split; try apply Forall_nil.
  apply Forall_cons; [apply midi_port_not_feedback|apply Forall_nil].
Qed.
Lemma control_sends buffer len a code e sends a' : process_session_control_packet buffer len a = ADone code e sends a' ->
  a' = a /\ Forall (fun p => ~ is_feedback (fst p) (snd p)) sends.
Proof.
  unfold process_session_control_packet. destruct (has_apple_midi_signature _ _) as [[]|]; [|intros [= <- <- <- <-]; repeat split; apply Forall_nil|discriminate].
  destruct (zget buffer 2); [|discriminate]. destruct (zget buffer 3); [|discriminate].
  destruct (_ && _); [intros H; apply invitation_sends in H; tauto|].
  destruct (_ && _); [intros [= <- <- <- <-]; repeat split; apply Forall_nil|].
  destruct (_ && _); intros [= <- <- <- <-]; repeat split; apply Forall_nil.
Qed.
Lemma session_sends buffer len a code e sends a' : process_session_midi_packet buffer len a = ADone code e sends a' ->
  ap_seq a' = ap_seq a /\ Forall (fun p => ~ is_feedback (fst p) (snd p)) sends.
Proof.
  unfold process_session_midi_packet. destruct (has_apple_midi_signature _ _) as [[]|]; [|intros [= <- <- <- <-]; repeat split; apply Forall_nil|discriminate].
  destruct (zget buffer 2); [|discriminate]. destruct (zget buffer 3); [|discriminate].
  destruct (_ && _); [intros H; apply invitation_sends in H; destruct H as (-> & _ & H); tauto|].
  destruct (_ && _); [intros H; apply sync_sends in H; tauto|].
  intros [= <- <- <- <-]; repeat split; apply Forall_nil.
Qed.

(** ** The datagram in the buffer *)
Lemma firstn_nth {A} n (l : list A) i : (i < n)%nat -> nth_error (firstn n l) i = nth_error l i.
Proof.
  revert l i. induction n as [|n IH]; intros l i H; [lia|]. destruct l as [|a l]; cbn [firstn]; [reflexivity|].
  destruct i as [|i]; [reflexivity|]. cbn [nth_error]. apply IH. lia.
Qed.
Lemma firstn_nth_none {A} n (l : list A) i : (n <= i)%nat -> nth_error (firstn n l) i = None.
Proof. intros H. apply nth_error_None. rewrite firstn_length. lia. Qed.

Lemma signature_eq buffer len : 0 <= len <= Z.of_nat (length buffer) ->
  has_apple_midi_signature buffer len = Some (session_data (firstn (Z.to_nat len) buffer)).
Proof.
  intros H. unfold has_apple_midi_signature, session_data. destruct (len <? 2) eqn:E.
  - destruct buffer as [|b0 [|b1 buffer]]; cbn in H.
    + destruct (Z.to_nat len); reflexivity.
    + destruct (Z.to_nat len) as [|[|n]]; reflexivity.
    + destruct (Z.to_nat len) as [|[|n]] eqn:En; try reflexivity. lia.
  - destruct buffer as [|b0 [|b1 buffer]]; cbn in H; try lia. destruct (Z.to_nat len) as [|[|n]] eqn:En; try lia. reflexivity.
Qed.

Lemma parse_seq buffer len code o q : 0 <= len <= Z.of_nat (length buffer) -> Forall byte buffer ->
  session_data (firstn (Z.to_nat len) buffer) = false ->
  process_rtp_midi_packet buffer len = Parsed code o q ->
  q = if rtp_data (firstn (Z.to_nat len) buffer) then Some (seq_of (firstn (Z.to_nat len) buffer)) else None.
Proof.
  intros Hl Hb Hs. unfold process_rtp_midi_packet, rtp_data. rewrite Hs. cbn [negb andb]. unfold RTP_HEADER_LEN.
  assert (FL : length (firstn (Z.to_nat len) buffer) = Z.to_nat len) by (rewrite firstn_length; lia).
  destruct (len <? 12 + 1) eqn:E1.
  { intros HH; injection HH; clear HH; intros <- _ _. rewrite firstn_nth_none by lia. reflexivity. }
  assert (S2 : seq_of (firstn (Z.to_nat len) buffer) = 256 * nth 2 buffer 0 + nth 3 buffer 0).
  { unfold seq_of. f_equal; [f_equal|]; (erewrite nth_error_nth; [reflexivity|]; rewrite firstn_nth by lia; apply nth_error_nth'; lia). }
  rewrite S2, FL. rewrite firstn_nth by lia.
  assert (G : forall i, 0 <= i < 13 -> zget buffer i = Some (nth (Z.to_nat i) buffer 0)).
  { intros i Hi. unfold zget. replace (i <? 0) with false by lia. apply nth_error_nth'. lia. }
  rewrite !G by lia. change (Z.to_nat 2) with 2%nat. change (Z.to_nat 3) with 3%nat. change (Z.to_nat 12) with 12%nat.
  rewrite (nth_error_nth' buffer 0) by lia.
  assert (B12 : 0 <= nth 12 buffer 0 < 256).
  { apply (proj1 (Forall_forall byte buffer) Hb). apply nth_In. lia. }
  set (c0 := nth 12 buffer 0) in *. cbn iota.
  assert (Seq : sequence_number (nth 2 buffer 0) (nth 3 buffer 0) = 256 * nth 2 buffer 0 + nth 3 buffer 0) by (unfold sequence_number; lia).
  destruct (is_long_header c0) eqn:EL; unfold is_long_header in EL.
  - assert (HL : 128 <= c0). { destruct (Z_lt_le_dec c0 128) as [L|L]; [rewrite Z.div_small in EL by lia; discriminate|exact L]. }
    replace (c0 <? 128) with false by lia.
    destruct (zget buffer 13) as [c1|] eqn:E13; [|discriminate].
    assert (Bc1 : 0 <= c1 < 256). { apply (Forall_zget byte buffer 13 c1); assumption. }
    assert (TW : twelve_bit_midi_length c0 c1 = (c0 mod 16) * 4096 + c1).
    { unfold twelve_bit_midi_length, u16. pose proof (Z.div_mod c0 16 ltac:(lia)) as D. pose proof (Z.mod_pos_bound c0 16 ltac:(lia)) as M.
      replace (c0 * 4096 + c1) with ((c0 mod 16) * 4096 + c1 + (c0 / 16) * 65536) by lia. rewrite Z_mod_plus_full. apply Z.mod_small. lia. }
    rewrite TW. pose proof (Z.mod_pos_bound c0 16 ltac:(lia)) as M. match goal with |- (if ?b then _ else _) = _ -> _ => destruct b eqn:E2 end.
    + intros HH; injection HH; clear HH; intros <- _ _. destruct (Z_lt_le_dec len 14) as [L14|L14].
      * rewrite firstn_nth_none by lia. reflexivity.
      * rewrite firstn_nth by lia. change (nth_error buffer 13 = Some c1) in E13. rewrite E13. replace (_ <=? _) with false by lia. reflexivity.
    + destruct (walk _ _ _ _ _); [|discriminate]. intros HH; injection HH; clear HH; intros <- _ _.
      rewrite firstn_nth by lia. change (nth_error buffer 13 = Some c1) in E13. rewrite E13. replace (_ <=? _) with true by lia. rewrite Seq. reflexivity.
  - assert (HL : c0 < 128). { destruct (Z_lt_le_dec c0 128) as [L|L]; [exact L|]. pose proof (Z.div_le_lower_bound c0 128 1 ltac:(lia) ltac:(lia)). rewrite negb_false_iff in EL. lia. }
    replace (c0 <? 128) with true by lia. unfold four_bit_midi_length. match goal with |- (if ?b then _ else _) = _ -> _ => destruct b eqn:E2 end.
    + intros HH; injection HH; clear HH; intros <- _ _. replace (_ <=? _) with false by lia. reflexivity.
    + destruct (walk _ _ _ _ _); [|discriminate]. intros HH; injection HH; clear HH; intros <- _ _. replace (_ <=? _) with true by lia. rewrite Seq. reflexivity.
Qed.

Lemma emit_all_state l : forall s s1 o, emit_all l s = NDone tt s1 o -> o = [] /\ exists d r, s1 = set_emit d r s.
Proof.
  induction l as [|b l IH]; intros s s1 o; cbn [emit_all].
  - intros [= <- <-]. split; [reflexivity|]. exists (n_recv_data s), (n_ring s). destruct s; reflexivity.
  - intros H. apply nthen_inv in H. destruct H as (s2 & o1 & o2 & H1 & H2 & ->). unfold emit_callback in H1.
    destruct (ring_buf_write b (n_ring s)) as [x r y|]; [|discriminate]. injection H1 as <- <-.
    destruct (IH _ _ _ H2) as (-> & d & r' & ->). split; [reflexivity|]. exists d, r'. destruct s; reflexivity.
Qed.

(** ** The remaining pieces *)
Lemma seq_range d : Forall byte d -> (4 <= length d)%nat -> 0 <= seq_of d < 65536.
Proof.
  intros H L. unfold seq_of. assert (B : forall i, (i < 4)%nat -> 0 <= nth i d 0 < 256).
  { intros i Hi. apply (proj1 (Forall_forall byte d) H). apply nth_In. lia. }
  pose proof (B 2%nat ltac:(lia)). pose proof (B 3%nat ltac:(lia)). lia.
Qed.
Lemma rtp_long d : rtp_data d = true -> (4 <= length d)%nat.
Proof.
  unfold rtp_data. rewrite andb_true_iff. intros [_ H]. destruct (nth_error d 12) eqn:E; [|discriminate].
  assert (nth_error d 12 <> None) by congruence. apply nth_error_Some in H0. lia.
Qed.
Lemma forall_firstn {A} (P : A -> Prop) n l : Forall P l -> Forall P (firstn n l).
Proof. intros H. rewrite <- (firstn_skipn n l) in H. apply Forall_app in H. apply H. Qed.
Lemma forall_skipn' {A} (P : A -> Prop) n l : Forall P l -> Forall P (skipn n l).
Proof. intros H. rewrite <- (firstn_skipn n l) in H. apply Forall_app in H. apply H. Qed.

Lemma set_apple_same s : set_apple (n_apple s) s = s.
Proof. destruct s; reflexivity. Qed.

Lemma got_reach s s' o : nwf s -> n_rx s = RX_BUFFERED ->
  let buffer := skipn (Z.to_nat REUSE_PAYLOAD_HEADER_LEN) (n_rx_buf s) in
  nthen (nlog (NGot (n_rx_ch s) (firstn (Z.to_nat (n_rx_len s)) buffer)))
    (nthen (process_udp_data (n_rx_ch s) buffer (n_rx_len s)) (nmod (set_rx_state RX_IDLE))) s = NDone tt s' o -> reach s o s'.
Proof.
  intros W Hx buffer H. pose proof W as (R & T & L & A & B & X). specialize (X Hx).
  assert (Lb : Z.of_nat (length buffer) = 1454) by (unfold buffer; rewrite skipn_length; change (Z.to_nat REUSE_PAYLOAD_HEADER_LEN) with 6%nat; lia).
  assert (Bb : Forall byte buffer) by (apply forall_skipn'; assumption).
  set (d := firstn (Z.to_nat (n_rx_len s)) buffer) in *.
  assert (Bd : Forall byte d) by (apply forall_firstn; assumption).
  apply nthen_inv in H. destruct H as (s1 & o1 & o2 & H1 & H2 & ->). injection H1 as <- <-.
  apply nthen_inv in H2. destruct H2 as (s2 & o3 & o4 & H3 & H4 & ->).
  assert (F : reach s ([NGot (n_rx_ch s) d] ++ o3) s2).
  2: { rewrite app_assoc. eapply reach_app; [exact F|]. injection H4 as <- <-. pose proof (reach_wf _ _ _ W F) as (R2 & _ & _ & _ & B2 & _).
       apply reach_one. apply at_rx; [assumption|assumption|discriminate]. }
  clear H4. unfold process_udp_data in H3. unfold u16 in H3. rewrite (Z.mod_small (n_rx_len s)) in H3 by lia.
  assert (Got : forall a, ap_seq a = last_seq1 (ap_seq (n_apple s)) (NGot (n_rx_ch s) d) -> atom s [NGot (n_rx_ch s) d] (set_apple a s)).
  { intros a Ea. apply at_got; [exact Ea|]. rewrite Ea. cbn [last_seq1]. destruct (_ && _) eqn:E; [|assumption].
    apply andb_prop in E. apply seq_range; [assumption|]. apply rtp_long, E. }
  destruct (n_rx_ch s =? CH_CONTROL_PORT) eqn:E1.
  - rewrite get_eq in H3. destruct (process_session_control_packet _ _ _) as [code e sends a|] eqn:P; [|discriminate].
    apply control_sends in P. destruct P as [-> P].
    apply nthen_inv in H3. destruct H3 as (s3 & o5 & o6 & H3 & H4 & ->). injection H3 as <- <-. cbn [app].
    assert (G : atom s [NGot (n_rx_ch s) d] (set_apple (n_apple s) s)).
    { apply Got. unfold CH_CONTROL_PORT in E1. cbn [last_seq1]. replace (n_rx_ch s =? 2) with false by lia. reflexivity. }
    apply (r_more _ [NGot (n_rx_ch s) d] _ o6 _ G).
    refine (moves_then _ _ (moves_send_all _ P) _ _ _ _ (atom_wf _ _ _ W G) H4).
    destruct e; [|apply moves_ret]. intros x x' y _ [= <- <-]. apply reach_one, at_endpoint.
  - destruct (n_rx_ch s =? CH_MIDI_PORT) eqn:E2.
    + rewrite signature_eq in H3 by lia. fold d in H3. destruct (session_data d) eqn:Es.
      * rewrite get_eq in H3. destruct (process_session_midi_packet _ _ _) as [code e sends a|] eqn:P; [|discriminate].
        apply session_sends in P. destruct P as [Ea P].
        apply nthen_inv in H3. destruct H3 as (s3 & o5 & o6 & H3 & H4 & ->). injection H3 as <- <-. cbn [app].
        assert (G : atom s [NGot (n_rx_ch s) d] (set_apple a s)).
        { apply Got. cbn [last_seq1]. unfold rtp_data. rewrite Es. cbn [negb andb]. rewrite andb_false_r. exact Ea. }
        apply (r_more _ [NGot (n_rx_ch s) d] _ o6 _ G). exact (moves_send_all _ P _ _ _ (atom_wf _ _ _ W G) H4).
      * destruct (process_rtp_midi_packet _ _) as [code o q|] eqn:P; [|discriminate].
        apply parse_seq in P; [|lia|assumption|exact Es]. fold d in P.
        apply nthen_inv in H3. destruct H3 as (s3 & o5 & o6 & H3 & H4 & ->). apply emit_all_state in H3. destruct H3 as (-> & x & r & ->). cbn [app].
        unfold CH_MIDI_PORT in E2. destruct (rtp_data d) eqn:Er; subst q; injection H4 as <- <-.
        -- assert (G : atom s [NGot (n_rx_ch s) d] (set_apple (update_last_seq_num (seq_of d) (n_apple s)) s)).
           { apply Got. cbn [last_seq1]. rewrite E2, Er. reflexivity. }
           apply (r_more _ [NGot (n_rx_ch s) d] _ [] _ G). apply (reach_one _ [] _). 
           change (n_apple (set_emit x r s)) with (n_apple s).
           replace (set_apple (update_last_seq_num (seq_of d) (n_apple s)) (set_emit x r s)) with (set_emit x r (set_apple (update_last_seq_num (seq_of d) (n_apple s)) s)) by reflexivity.
           apply at_emit.
        -- assert (G : atom s [NGot (n_rx_ch s) d] (set_apple (n_apple s) s)).
           { apply Got. cbn [last_seq1]. rewrite Er, andb_false_r. reflexivity. }
           apply (r_more _ [NGot (n_rx_ch s) d] _ [] _ G). rewrite set_apple_same. apply (reach_one _ [] _). apply at_emit.
    + injection H3 as <- <-. apply reach_one.
      assert (G : atom s [NGot (n_rx_ch s) d] (set_apple (n_apple s) s)).
      { apply Got. unfold CH_MIDI_PORT in E2. cbn [last_seq1]. rewrite E2. reflexivity. }
      rewrite set_apple_same in G. exact G.
Qed.

Lemma moves_rx : moves (nbind nget (fun s =>
     match n_rx s with
     | RX_BUFFERED =>
         let buffer := skipn (Z.to_nat REUSE_PAYLOAD_HEADER_LEN) (n_rx_buf s) in
         nthen (nlog (NGot (n_rx_ch s) (firstn (Z.to_nat (n_rx_len s)) buffer)))
         (nthen (process_udp_data (n_rx_ch s) buffer (n_rx_len s)) (nmod (set_rx_state RX_IDLE)))
     | _ => nret tt
     end)).
Proof.
  intros s s' o W. rewrite get_eq. destruct (n_rx s) eqn:E; try (intros [= <- <-]; constructor). apply got_reach; assumption.
Qed.

Lemma moves_callback c : callback_ok c -> moves (call_back c).
Proof.
  intros Hc s s' o W. pose proof W as (R & T & L & A & B & X). destruct c as [ch d| |]; cbn [call_back].
  - cbn in Hc. destruct Hc as (H1 & H2 & H3). unfold recv_complete. destruct (n_rx s) eqn:Ex; try (intros [= <- <-]; constructor).
    set (buf := splice (n_rx_buf s) 0 d).
    assert (Wb : length buf = 1460%nat) by (unfold buf; rewrite splice_length; [assumption|cbn; lia]).
    assert (Bb : Forall byte buf) by (apply splice_forall; assumption).
    assert (RX : atom s [] (set_rx RX_BUFFERED ch (Z.of_nat (length d) - REUSE_PAYLOAD_HEADER_LEN) buf s)).
    { apply at_rx; [assumption|assumption|]. unfold REUSE_PAYLOAD_HEADER_LEN. lia. }
    destruct buf as [|a3 [|a2 [|a1 [|a0 [|p1 [|p0 buf]]]]]]; try discriminate. intros [= <- <-].
    apply (r_more _ [] _ [] _ RX). apply (reach_one _ [] _).
    unfold persist_remote_endpoint. destruct (ch =? CH_CONTROL_PORT); [apply at_endpoint|]. destruct (ch =? CH_MIDI_PORT); apply at_endpoint.
  - unfold recv_error. destruct (n_rx s) eqn:Ex; intros [= <- <-]; try constructor.
    apply (reach_one _ [] _). apply at_rx; [assumption|assumption|discriminate].
  - intros [= <- <-]. apply reach_one, at_sent.
Qed.
Lemma moves_callbacks l : Forall callback_ok l -> moves (call_backs l).
Proof. induction 1; [apply moves_ret|]. cbn [call_backs]. apply moves_then; [apply moves_callback; assumption|assumption]. Qed.

Lemma moves_send_buffered ok : moves (send_buffered_packet ok).
Proof.
  intros s s' o W. unfold send_buffered_packet. rewrite get_eq. destruct (n_tx s) eqn:E; try (intros [= <- <-]; constructor).
  unfold nthen, nbind, nmod, nlog. intros [= <- <-]. apply reach_one.
  exact (at_send s ok _ E eq_refl).
Qed.

Lemma moves_feedback : moves (nbind nget (fun s => match n_tx s with TX_IDLE => send_receiver_feedback | _ => nret tt end)).
Proof.
  intros s s' o W. rewrite get_eq. destruct (n_tx s) eqn:E; try (intros [= <- <-]; constructor).
  unfold send_receiver_feedback. rewrite get_eq. unfold RECEIVER_FEEDBACK_FRAME_FREQUENCY. destruct (n_frame s <? 10) eqn:F; [intros [= <- <-]; constructor|].
  destruct (n_last_seq s =? ap_seq (n_apple s)) eqn:Q.
  - intros [= <- <-]. apply reach_one, at_no_feedback. lia.
  - unfold nthen, net_send, nbind, nget. rewrite E. cbn -[splice receiver_feedback]. intros [= <- <-].
    assert (G : atom s [NQueued 1 (receiver_feedback (n_apple s))] (set_feedback 0 (ap_seq (n_apple s)) (set_tx TX_QUEUED 1 12 (splice (n_tx_buf s) 6 (receiver_feedback (n_apple s))) s))) by (apply at_feedback; [assumption|lia|lia]).
    exact (reach_one _ _ _ G).
Qed.

Lemma moves_arm ok : moves (nbind nget (fun s =>
        match n_rx s with
        | RX_IDLE => nthen (nlog (NArmed ok)) (if ok then nmod (set_rx_state RX_ARMED) else nret tt)
        | _ => nret tt
        end)).
Proof.
  intros s s' o W. pose proof W as (R & T & L & A & B & X). rewrite get_eq. destruct (n_rx s) eqn:E; try (intros [= <- <-]; constructor).
  destruct ok; intros [= <- <-].
  - apply (r_more _ [NArmed true] s []); [apply at_armed|]. apply (reach_one _ [] _), at_rx; [assumption|assumption|discriminate].
  - apply reach_one, at_armed.
Qed.

Theorem moves_step op : nop_ok op -> moves (net_step op).
Proof.
  destruct op as [cbs a b|d|d|]; intros H; cbn [net_step].
  - unfold net_tick. repeat apply moves_then; [apply moves_callbacks; exact H|apply moves_rx|apply moves_send_buffered|apply moves_feedback|apply moves_arm].
  - intros s s' o W. unfold net_write. rewrite get_eq. destruct (pack_rtp_midi_packet _ _ _ _) as [[pkt q]|]; [|intros [= <- <-]; constructor].
    intros E. refine (moves_then _ _ _ (moves_send _ _ (midi_port_not_feedback pkt)) _ _ _ W E).
    intros x x' y _ [= <- <-]. apply reach_one, at_seq.
  - intros s s' o W [= <- <-]. apply reach_one, at_frames. cbn in H. lia.
  - intros s s' o W E. apply nbind_inv in E. destruct E as (x & s1 & o1 & o2 & E1 & E2 & ->). injection E2 as <- <-. unfold net_read in E1.
    destruct (RingBufModel.ring_buf_read (n_ring s)) as [[[] [v|]] r y|]; try discriminate; injection E1 as <- <- <-; apply (reach_one _ [] _), at_emit.
Qed.

Lemma moves_run ops : Forall nop_ok ops -> moves (net_run ops).
Proof. induction 1; [apply moves_ret|]. cbn [net_run]. apply moves_then; [apply moves_step; assumption|assumption]. Qed.

Lemma boot_wf : nwf net_boot.
Proof.
  split; [exact (repeat_length 0 1460)|]. split; [exact (repeat_length 0 1460)|]. split; [cbn; lia|]. split; [cbn; lia|]. split; [|discriminate].
  apply Forall_forall. intros x H. apply repeat_spec in H. subst x. unfold byte. lia.
Qed.

Lemma history_reach ops s tr : nhistory ops s tr -> reach net_boot tr s.
Proof. intros [H1 H2]. exact (moves_run ops H1 _ _ _ boot_wf H2). Qed.

(** ** Invariants *)
Lemma reach_all (P : list nev -> net -> Prop) : (forall tr s o s', nwf s -> P tr s -> atom s o s' -> P (tr ++ o) s') ->
  forall s o s', reach s o s' -> nwf s -> forall tr, P tr s -> P (tr ++ o) s'.
Proof.
  intros HP s o s' R. induction R as [s|s o1 s1 o2 s2 A R IH]; intros W tr H; [rewrite app_nil_r; exact H|].
  rewrite app_assoc. apply IH; [eapply atom_wf; eauto|]. eapply HP; eauto.
Qed.
Lemma reach_inv (P : list nev -> net -> Prop) : (forall tr s o s', nwf s -> P tr s -> atom s o s' -> P (tr ++ o) s') -> P [] net_boot ->
  forall tr s, reach net_boot tr s -> P tr s.
Proof. intros HP H0 tr s R. exact (reach_all P HP _ _ _ R boot_wf [] H0). Qed.

Lemma in_flight_snoc tr e : in_flight (tr ++ [e]) = in_flight1 (in_flight tr) e.
Proof. unfold in_flight. rewrite fold_left_app. reflexivity. Qed.
Lemma last_seq_snoc tr e : last_seq (tr ++ [e]) = last_seq1 (last_seq tr) e.
Proof. unfold last_seq. rewrite fold_left_app. reflexivity. Qed.
Lemma acked_snoc tr e : acked (tr ++ [e]) = acked1 (acked tr) e.
Proof. unfold acked. rewrite fold_left_app. reflexivity. Qed.
Lemma accepted_app a b : accepted (a ++ b) = accepted a ++ accepted b.
Proof. apply flat_map_app. Qed.
Lemma handed_over_app a b : handed_over (a ++ b) = handed_over a ++ handed_over b.
Proof. apply flat_map_app. Qed.

(** The buffer the library works from. *)
Definition flight_inv (tr : list nev) (s : net) : Prop :=
  match n_tx s with
  | TX_INFLIGHT => in_flight tr = Some (firstn (Z.to_nat (n_tx_len s + 6)) (n_tx_buf s))
  | _ => in_flight tr = None
  end.
Lemma flight_inv_step tr s o s' : nwf s -> flight_inv tr s -> atom s o s' -> flight_inv (tr ++ o) s'.
Proof.
  intros W H A. unfold flight_inv in *. destruct A; rewrite ?app_nil_r, ?in_flight_snoc; cbn -[splice to_be32 u8 receiver_feedback in_flight firstn]; try exact H.
  - rewrite H0 in H. exact H.
  - reflexivity.
  - rewrite H0 in H. destruct ok; [reflexivity|exact H].
  - rewrite H0 in H. exact H.
Qed.

Lemma snoc_cases {A} (tr : list A) o e a b : (length o <= 1)%nat -> tr ++ o = a ++ e :: b ->
  (exists b', tr = a ++ e :: b' /\ b = b' ++ o) \/ (o = [e] /\ a = tr /\ b = []).
Proof.
  intros Ho E. destruct o as [|x [|]]; [| |cbn in Ho; lia].
  - left. rewrite app_nil_r in E. exists b. rewrite app_nil_r. split; [exact E|reflexivity].
  - destruct b as [|y b] using rev_ind.
    + right. apply app_inj_tail in E. destruct E as [-> ->]. repeat split.
    + left. clear IHb. change (a ++ e :: b ++ [y]) with (a ++ (e :: b) ++ [y]) in E. rewrite app_assoc in E. apply app_inj_tail in E. destruct E as [-> ->].
      exists b. split; reflexivity.
Qed.
Lemma atom_short s o s' : atom s o s' -> (length o <= 1)%nat.
Proof. destruct 1; cbn; lia. Qed.

Definition one_flight (tr : list nev) : Prop := forall a b ch p ok, tr = a ++ NSend ch p ok :: b -> in_flight a = None.
Lemma one_flight_step tr s o s' : nwf s -> flight_inv tr s /\ one_flight tr -> atom s o s' -> flight_inv (tr ++ o) s' /\ one_flight (tr ++ o).
Proof.
  intros W [H1 H2] A. split; [eapply flight_inv_step; eauto|]. intros a b ch p ok E. apply snoc_cases in E; [|eapply atom_short; exact A].
  destruct E as [(b' & E & _)|(E & -> & _)]; [eapply H2; exact E|].
  destruct A; try discriminate. unfold flight_inv in H1. rewrite H in H1. exact H1.
Qed.

Lemma history_flight ops s tr : nhistory ops s tr -> flight_inv tr s /\ one_flight tr.
Proof.
  intros H. apply history_reach in H. revert H. apply (reach_inv (fun tr s => flight_inv tr s /\ one_flight tr)); [intros tr0 s0 o s1; apply one_flight_step|].
  split; [reflexivity|]. intros a b ch p ok E. destruct a; discriminate.
Qed.

(** What is waiting to be handed over. *)
Definition waiting (s : net) : list (Z * list Z) :=
  match n_tx s with TX_QUEUED => [(n_tx_ch s, firstn (Z.to_nat (n_tx_len s)) (skipn 6 (n_tx_buf s)))] | _ => [] end.

Lemma honest_prefix a b : honest (a ++ b) -> honest a.
Proof. intros H x y E. apply (H x (y ++ b)). rewrite E, <- app_assoc. reflexivity. Qed.
Lemma honest_last a : honest (a ++ [NSent]) -> in_flight a <> None.
Proof. intros H. apply (H a []). reflexivity. Qed.

Lemma skipn_splice buf data n : length data = n -> (n <= length buf)%nat -> skipn n (splice buf 0 data) = skipn n buf.
Proof.
  intros H Hb. unfold splice. cbn [firstn app]. change (Z.to_nat 0) with 0%nat. cbn [firstn Nat.add app]. rewrite skipn_app, H, Nat.sub_diag. rewrite skipn_all2 by lia. reflexivity.
Qed.
Lemma splice_at6 buf data : (6 <= length buf)%nat -> skipn 6 (splice buf 6 data) = data ++ skipn (6 + length data) buf.
Proof.
  intros H. unfold splice. change (Z.to_nat 6) with 6%nat. rewrite skipn_app, firstn_length, Nat.min_l by lia. rewrite skipn_all2 by (rewrite firstn_length; lia). reflexivity.
Qed.
Lemma skipn_firstn {A} n m (l : list A) : skipn n (firstn (n + m) l) = firstn m (skipn n l).
Proof. revert l. induction n as [|n IH]; intros l; [reflexivity|]. destruct l; cbn [Nat.add firstn skipn]; [destruct m; reflexivity|apply IH]. Qed.
Lemma to_be32_length x : length (to_be32 x) = 4%nat.
Proof. reflexivity. Qed.

Lemma accept_step tr s o s' : nwf s ->
  flight_inv tr s /\ (honest tr -> accepted tr = handed_over tr ++ waiting s) -> atom s o s' ->
  flight_inv (tr ++ o) s' /\ (honest (tr ++ o) -> accepted (tr ++ o) = handed_over (tr ++ o) ++ waiting s').
Proof.
  intros W [F H] A. split; [eapply flight_inv_step; eauto|]. intros Hh. pose proof (H (honest_prefix _ _ Hh)) as E.
  rewrite accepted_app, handed_over_app. destruct W as (_ & T & L & _).
  destruct A; unfold waiting in *; cbn -[splice to_be32 u8 receiver_feedback firstn skipn Z.add] in *; rewrite ?app_nil_r in *; try exact E.
  - rewrite H0 in E. rewrite E, app_nil_r. f_equal. f_equal. f_equal. rewrite splice_at6 by lia. rewrite Nat2Z.id. rewrite firstn_app, firstn_all, Nat.sub_diag. cbn [firstn]. rewrite app_nil_r. reflexivity.
  - apply honest_last in Hh. unfold flight_inv in F. destruct (n_tx s); try congruence. rewrite app_nil_r in E. exact E.
  - rewrite H0 in E. rewrite E. subst buf. replace (Z.to_nat (n_tx_len s + 6)) with (6 + Z.to_nat (n_tx_len s))%nat by lia. rewrite skipn_firstn.
    rewrite skipn_splice by (cbn; lia). destruct ok; rewrite app_nil_r; reflexivity.
  - rewrite H0 in E. rewrite E, app_nil_r. f_equal. f_equal. f_equal. rewrite splice_at6 by lia. reflexivity.
Qed.
Lemma history_accept ops s tr : nhistory ops s tr -> honest tr -> accepted tr = handed_over tr ++ waiting s.
Proof.
  intros H. apply history_reach in H. revert H. apply (reach_inv (fun tr s => flight_inv tr s /\ (honest tr -> accepted tr = handed_over tr ++ waiting s))); [intros tr0 s0 o s1; apply accept_step|].
  split; [reflexivity|]. reflexivity.
Qed.

(** ** The next poll hands over what is waiting *)
Lemma run_app a b s s' o : net_run (a ++ b) s = NDone tt s' o ->
  exists s1 o1 o2, net_run a s = NDone tt s1 o1 /\ net_run b s1 = NDone tt s' o2 /\ o = o1 ++ o2.
Proof.
  revert s s' o. induction a as [|x a IH]; intros s s' o H.
  - exists s, [], o. split; [reflexivity|]. split; [exact H|reflexivity].
  - cbn [app net_run] in H. apply nthen_inv in H. destruct H as (s1 & o1 & o2 & H1 & H2 & ->). apply IH in H2. destruct H2 as (s2 & o3 & o4 & H3 & H4 & ->).
    exists s2, (o1 ++ o3), o4. split; [|split; [exact H4|apply app_assoc]]. cbn [net_run]. unfold nthen, nbind. rewrite H1, H3. reflexivity.
Qed.
Lemma run_snoc a op s s' o : net_run (a ++ [op]) s = NDone tt s' o ->
  exists s1 o1 o2, net_run a s = NDone tt s1 o1 /\ net_step op s1 = NDone tt s' o2 /\ o = o1 ++ o2.
Proof.
  intros H. apply run_app in H. destruct H as (s1 & o1 & o2 & H1 & H2 & ->). cbn [net_run] in H2. apply nthen_inv in H2.
  destruct H2 as (s2 & o3 & o4 & H3 & H4 & ->). injection H4 as <- <-. exists s1, o1, (o3 ++ []). rewrite app_nil_r. repeat split; assumption.
Qed.
Lemma history_step ops op s tr : nhistory (ops ++ [op]) s tr ->
  exists s1 tr1 o, nhistory ops s1 tr1 /\ nop_ok op /\ net_step op s1 = NDone tt s o /\ tr = tr1 ++ o.
Proof.
  intros [H1 H2]. apply Forall_app in H1. destruct H1 as [H1 H1']. inversion_clear H1' as [|? ? Hop _].
  apply run_snoc in H2. destruct H2 as (s1 & o1 & o2 & H2 & H3 & ->). exists s1, o1, o2. repeat split; assumption.
Qed.

Lemma reach_accept s o s' tr : nwf s -> reach s o s' -> flight_inv tr s -> (honest tr -> accepted tr = handed_over tr ++ waiting s) ->
  honest (tr ++ o) -> accepted (tr ++ o) = handed_over (tr ++ o) ++ waiting s'.
Proof.
  intros W R F H. exact (proj2 (reach_all (fun tr s => flight_inv tr s /\ (honest tr -> accepted tr = handed_over tr ++ waiting s)) accept_step s o s' R W tr (conj F H))).
Qed.

Lemma tick_hands_over ops cbs send_ok recv_ok s tr o : nhistory ops s tr -> nop_ok (NTick cbs send_ok recv_ok) ->
  forall s', net_step (NTick cbs send_ok recv_ok) s = NDone tt s' o -> honest (tr ++ o) ->
  exists later, handed_over (tr ++ o) = accepted tr ++ later.
Proof.
  intros Hh Hop s' E Ho. pose proof (history_reach _ _ _ Hh) as R. pose proof (reach_wf _ _ _ boot_wf R) as W.
  destruct (history_flight _ _ _ Hh) as [F _]. pose proof (history_accept _ _ _ Hh) as HA.
  cbn [net_step] in E. unfold net_tick in E.
  apply nthen_inv in E. destruct E as (s1 & o1 & o2' & E1 & E & ->).
  apply nthen_inv in E. destruct E as (s2 & o2 & o3' & E2 & E & ->).
  apply nthen_inv in E. destruct E as (s3 & o3 & o4 & E3 & E & ->).
  pose proof (moves_callbacks cbs Hop _ _ _ W E1) as R1. pose proof (reach_wf _ _ _ W R1) as W1.
  pose proof (moves_rx _ _ _ W1 E2) as R2.
  assert (HB : accepted (tr ++ o1 ++ o2) = handed_over (tr ++ o1 ++ o2) ++ waiting s2).
  { eapply reach_accept; [exact W|eapply reach_app; eassumption|exact F|exact HA|]. rewrite !app_assoc in Ho. rewrite !app_assoc.
    apply honest_prefix in Ho. apply honest_prefix in Ho. exact Ho. }
  assert (HC : handed_over (tr ++ o1 ++ o2 ++ o3) = accepted (tr ++ o1 ++ o2)).
  { rewrite HB. rewrite !app_assoc, handed_over_app. f_equal.
    pose proof (reach_wf _ _ _ W1 R2) as (_ & T & L & _). clear - E3 T L.
    unfold send_buffered_packet in E3. rewrite get_eq in E3. unfold waiting. destruct (n_tx s2); try (injection E3 as <- <-; reflexivity).
    unfold nthen, nbind, nmod, nlog in E3. injection E3 as <- <-. cbn -[splice to_be32 u8 firstn skipn Z.add]. f_equal. f_equal.
    unfold REUSE_PAYLOAD_HEADER_LEN. replace (Z.to_nat (n_tx_len s2 + 6)) with (6 + Z.to_nat (n_tx_len s2))%nat by lia. rewrite skipn_firstn, skipn_splice by (cbn; lia). reflexivity. }
  exists (accepted (o1 ++ o2) ++ handed_over o4). replace (tr ++ o1 ++ o2 ++ o3 ++ o4) with ((tr ++ o1 ++ o2 ++ o3) ++ o4) by (rewrite <- !app_assoc; reflexivity).
  rewrite handed_over_app, HC, accepted_app, <- app_assoc. reflexivity.
Qed.

(** Bytes written while something is waiting or in flight are lost. *)
Lemma busy_write ops s tr data : nhistory ops s tr -> honest tr ->
  in_flight tr <> None \/ accepted tr <> handed_over tr ->
  exists s', net_step (NWrite data) s = NDone tt s' [] /\ n_tx_buf s' = n_tx_buf s.
Proof.
  intros Hh Ho Hb. destruct (history_flight _ _ _ Hh) as [F _]. pose proof (history_accept _ _ _ Hh Ho) as HA.
  assert (n_tx s <> TX_IDLE).
  { intros E. unfold flight_inv, waiting in *. rewrite E in F, HA. rewrite app_nil_r in HA. destruct Hb; congruence. }
  cbn [net_step]. unfold net_write, nbind, nget. destruct (pack_rtp_midi_packet _ _ _ _) as [[p q]|]; [|exists s; split; reflexivity].
  exists (set_send_seq q s). split; [|reflexivity]. unfold nthen, nmod, net_send, nbind, nget. cbn. destruct (n_tx s); [congruence| |]; reflexivity.
Qed.

Lemma pack_some q ts data : Z.of_nat (length data) <= 1440 -> exists hdr,
  pack_rtp_midi_packet q ts data (u16 (256 + Z.of_nat (length data))) = Some (hdr ++ data, u16 (q + 1)) /\ (length hdr = 13 \/ length hdr = 14)%nat.
Proof.
  intros H. unfold pack_rtp_midi_packet, RTP_HEADER_LEN. replace (0x0FFF <? Z.of_nat (length data)) with false by lia.
  assert (E : u16 (256 + Z.of_nat (length data)) <? u16 (12 + (if 0x0F <? Z.of_nat (length data) then 2 else 1) + Z.of_nat (length data)) = false).
  { unfold u16. destruct (0x0F <? Z.of_nat (length data)); rewrite !Z.mod_small; lia. }
  rewrite E, app_assoc. eexists. split; [reflexivity|]. rewrite app_length. destruct (0x0F <? Z.of_nat (length data)); cbn; lia.
Qed.

(** Written while idle: accepted as one packet carrying the bytes. *)
Lemma idle_write ops s tr data : nhistory ops s tr -> honest tr -> Z.of_nat (length data) <= 1440 ->
  in_flight tr = None -> accepted tr = handed_over tr ->
  exists s' hdr, net_step (NWrite data) s = NDone tt s' [NQueued 2 (hdr ++ data)] /\ (length hdr = 13 \/ length hdr = 14)%nat.
Proof.
  intros Hh Ho Hl Hf He. destruct (history_flight _ _ _ Hh) as [F _]. pose proof (history_accept _ _ _ Hh Ho) as HA.
  assert (E : n_tx s = TX_IDLE).
  { unfold flight_inv, waiting in *. destruct (n_tx s); [reflexivity| |congruence]. rewrite He in HA. rewrite <- (app_nil_r (handed_over tr)) in HA at 1.
    apply app_inv_head in HA. discriminate. }
  destruct (pack_some (n_send_seq s) (ap_lo (n_apple s)) data Hl) as (hdr & Eh & Hhdr).
  exists (set_tx TX_QUEUED 2 (Z.of_nat (length (hdr ++ data))) (splice (n_tx_buf s) 6 (hdr ++ data)) (set_send_seq (u16 (n_send_seq s + 1)) s)), hdr.
  split; [|exact Hhdr]. cbn [net_step]. unfold net_write. rewrite get_eq. unfold SEND_RTP_MIDI_PACKET_BUFFER_LEN. rewrite Eh.
  unfold nthen, net_send, nbind, nget, nmod. cbn -[splice u16 length Z.add Z.ltb]. rewrite E.
  replace (MW_RX_TX_BUFFER_SIZE <? _) with false; [reflexivity|]. unfold MW_RX_TX_BUFFER_SIZE, REUSE_PAYLOAD_HEADER_LEN. rewrite app_length. lia.
Qed.

(** ** Receiver feedback *)
Lemma frames_app a b : frames (a ++ b) = frames a + frames b.
Proof. unfold frames. induction a as [|e a IH]; [reflexivity|]. cbn [app fold_right]. rewrite IH. destruct e; lia. Qed.

Definition rate_inv (tr : list nev) (s : net) : Prop :=
  0 <= n_frame s /\ n_frame s <= frames tr /\ forall a b ch d, tr = a ++ NQueued ch d :: b -> is_feedback ch d -> n_frame s <= frames b.
Lemma rate_inv_step tr s o s' : rate_inv tr s -> atom s o s' -> rate_inv (tr ++ o) s'.
Proof.
  intros (H0 & H1 & H2) A. pose proof (atom_short _ _ _ A) as Sh.
  assert (Keep : n_frame s' = n_frame s -> frames o = 0 -> (forall ch d, o = [NQueued ch d] -> is_feedback ch d -> n_frame s' <= 0) -> rate_inv (tr ++ o) s').
  { intros E Fo Hq. split; [lia|]. split; [rewrite frames_app; lia|]. intros a b ch d Es Hf. apply snoc_cases in Es; [|exact Sh].
    destruct Es as [(b' & Es & ->)|(-> & -> & ->)]; [|specialize (Hq _ _ eq_refl Hf); cbn; lia].
    rewrite frames_app, E, Fo. specialize (H2 _ _ _ _ Es Hf). lia. }
  destruct A; try (apply Keep; [reflexivity|reflexivity|intros; discriminate]).
  - apply Keep; [reflexivity|reflexivity|]. intros c d [= <- <-] Hf. contradiction.
  - clear Keep. split; [cbn; lia|]. assert (0 <= frames tr) by lia. split; [rewrite frames_app; cbn; lia|]. intros a b ch d Es Hf. apply snoc_cases in Es; [|exact Sh].
    destruct Es as [(b' & Es & ->)|(_ & _ & ->)]; [|cbn; lia]. specialize (H2 _ _ _ _ Es Hf). rewrite frames_app. cbn. lia.
  - clear Keep. split; [cbn; lia|]. rewrite app_nil_r. split; [cbn; lia|]. intros a b ch d Es Hf. specialize (H2 _ _ _ _ Es Hf). cbn. lia.
  - clear Keep. assert (Hu : 0 <= u16 (n_frame s + d) <= n_frame s + d) by (unfold u16; split; [apply Z.mod_pos_bound; lia|apply Z.mod_le; lia]).
    split; [cbn -[u16]; lia|]. split; [rewrite frames_app; cbn -[u16]; lia|]. intros a b ch d' Es Hf. apply snoc_cases in Es; [|exact Sh].
    destruct Es as [(b' & Es & ->)|(Es & _)]; [|discriminate]. specialize (H2 _ _ _ _ Es Hf). rewrite frames_app. cbn -[u16]. lia.
Qed.

Lemma acked1_other q ch d : ~ is_feedback ch d -> acked1 q (NQueued ch d) = q.
Proof.
  intros H. unfold acked1.
  repeat first [reflexivity | progress (match goal with |- match ?x with _ => _ end = _ => destruct x eqn:? end)]; subst;
  exfalso; apply H; split; [reflexivity|]; eexists; reflexivity.
Qed.

Definition said (tr : list nev) : Prop := forall a b ch d, tr = a ++ NQueued ch d :: b -> is_feedback ch d ->
  10 <= frames a /\ (forall a1 a2 ch' d', a = a1 ++ NQueued ch' d' :: a2 -> is_feedback ch' d' -> 10 <= frames a2) /\
  d = feedback_for (last_seq a) /\ last_seq a <> acked a.
Definition feedback_inv (tr : list nev) (s : net) : Prop :=
  rate_inv tr s /\ ap_seq (n_apple s) = last_seq tr /\ n_last_seq s = acked tr /\ said tr.

Lemma feedback_eq a : 0 <= ap_seq a < 65536 -> receiver_feedback a = feedback_for (ap_seq a).
Proof.
  intros H. unfold receiver_feedback, feedback_for. change (u8 (MEGADRIVE_SSRC / 2 ^ 24)) with 0x9E. change (u8 (MEGADRIVE_SSRC / 2 ^ 16)) with 0x91.
  change (u8 (MEGADRIVE_SSRC / 2 ^ 8)) with 0x51. change (u8 MEGADRIVE_SSRC) with 0x50. unfold u8. rewrite (Z.mod_small (_ / 256)); [reflexivity|].
  split; [apply Z.div_pos; lia|apply Z.div_lt_upper_bound; lia].
Qed.

Lemma feedback_inv_step tr s o s' : nwf s -> feedback_inv tr s -> atom s o s' -> feedback_inv (tr ++ o) s'.
Proof.
  intros W (R & Q & K & H) A. pose proof (atom_short _ _ _ A) as Sh. split; [eapply rate_inv_step; eauto|]. destruct R as (R0 & R1 & R2).
  destruct W as (_ & _ & _ & Wa & _). split; [|split].
  - destruct A; rewrite ?app_nil_r, ?last_seq_snoc; cbn -[last_seq last_seq1 u16]; try exact Q. rewrite <- Q. assumption.
  - destruct A; rewrite ?app_nil_r, ?acked_snoc; try exact K.
    + rewrite acked1_other by assumption. exact K.
    + rewrite feedback_eq by exact Wa. cbn -[Z.mul Z.div Z.modulo]. pose proof (Z.div_mod (ap_seq (n_apple s)) 256). lia.
  - intros a b ch d Es Hf. apply snoc_cases in Es; [|exact Sh].
    destruct Es as [(b' & Es & ->)|(Eo & -> & ->)]; [exact (H _ _ _ _ Es Hf)|].
    destruct A; try discriminate; injection Eo as <- <-; [contradiction|]. split; [lia|]. split; [|split].
    + intros a1 a2 ch' d' Ea Hf'. specialize (R2 _ _ _ _ Ea Hf'). lia.
    + rewrite <- Q. apply feedback_eq, Wa.
    + rewrite <- Q, <- K. congruence.
Qed.
Lemma history_feedback ops s tr : nhistory ops s tr -> said tr.
Proof.
  intros H. apply history_reach in H. apply (reach_inv feedback_inv feedback_inv_step) in H; [apply H|].
  split; [|split; [reflexivity|split; [reflexivity|]]].
  - split; [cbn; lia|]. split; [cbn; lia|]. intros a b ch d E. destruct a; discriminate.
  - intros a b ch d E. destruct a; discriminate.
Qed.

(** ** The statements *)
Lemma c59_in_flight ops s tr : nhistory ops s tr ->
  (forall b, in_flight tr = Some b -> exists n, b = firstn n (n_tx_buf s)) /\
  (forall a ch p ok b, tr = a ++ NSend ch p ok :: b -> in_flight a = None).
Proof.
  intros H. apply history_flight in H. destruct H as [F O]. split.
  - intros b Hb. unfold flight_inv in F. destruct (n_tx s); try congruence. rewrite F in Hb. injection Hb as <-. eexists. reflexivity.
  - intros a ch p ok b. apply O.
Qed.
Lemma c59_order ops s tr : nhistory ops s tr -> honest tr ->
  (exists waiting, accepted tr = handed_over tr ++ waiting /\ (length waiting <= 1)%nat) /\
  (forall cbs send_ok recv_ok s' o, Forall callback_ok cbs -> net_step (NTick cbs send_ok recv_ok) s = NDone tt s' o -> honest (tr ++ o) ->
     exists later, handed_over (tr ++ o) = accepted tr ++ later) /\
  (forall data, Z.of_nat (length data) <= 1440 -> in_flight tr = None -> accepted tr = handed_over tr ->
     exists s' hdr, net_step (NWrite data) s = NDone tt s' [NQueued 2 (hdr ++ data)] /\ (length hdr = 13 \/ length hdr = 14)%nat).
Proof.
  intros H Ho. split; [|split].
  - exists (waiting s). split; [eapply history_accept; eassumption|]. unfold waiting. destruct (n_tx s); cbn; lia.
  - intros cbs a b s' o Hc E Hh. eapply tick_hands_over; eassumption.
  - intros data Hl Hf Ha. eapply idle_write; eassumption.
Qed.
