(** Proofs: what a poll does with a session packet. *)
From Verif Require Import Base BaseLemmas RingBufModel RtpModel AppleModel NetModel RtpSpec NetSpec AppleSpec NetProofs AppleProofs.

(** ** Callbacks *)
Definition loaded (s : net) (ch : Z) (raw : list Z) : Prop :=
  n_rx s = RX_BUFFERED /\ n_rx_ch s = ch /\ n_rx_len s = Z.of_nat (length raw) - 6 /\
  firstn (Z.to_nat (n_rx_len s)) (skipn 6 (n_rx_buf s)) = skipn 6 raw /\
  (ch = 1 -> to_be32 (n_ip s) ++ [u8 (n_control_port s / 256); u8 (n_control_port s)] = firstn 6 raw) /\
  (ch = 2 -> to_be32 (n_ip s) ++ [u8 (n_midi_port s / 256); u8 (n_midi_port s)] = firstn 6 raw).

Lemma ndone_inj s o s' o' : NDone tt s o = NDone tt s' o' -> s = s' /\ o = o'.
Proof. intros H. split; congruence. Qed.
Lemma port_bytes p1 p0 : byte p1 -> byte p0 -> [u8 ((p1 * 256 + p0) / 256); u8 (p1 * 256 + p0)] = [p1; p0].
Proof. unfold byte, u8. intros. f_equal; [|f_equal]; Z.div_mod_to_equations; lia. Qed.

Lemma callback_kept c s s' o : call_back c s = NDone tt s' o -> n_rx s = RX_BUFFERED ->
  forall ch raw, loaded s ch raw -> loaded s' ch raw.
Proof.
  intros E H ch raw L. destruct c as [c d| |]; cbn [call_back] in E.
  - unfold recv_complete in E. rewrite H in E. injection E as <- <-. exact L.
  - unfold recv_error in E. rewrite H in E. injection E as <- <-. exact L.
  - injection E as <- <-. exact L.
Qed.
Lemma callbacks_kept cbs s s' o : call_backs cbs s = NDone tt s' o -> forall ch raw, loaded s ch raw -> loaded s' ch raw.
Proof.
  revert s s' o. induction cbs as [|c cbs IH]; intros s s' o E ch raw L; [injection E as <- <-; exact L|].
  cbn [call_backs] in E. apply nthen_inv in E. destruct E as (s1 & o1 & o2 & E1 & E2 & ->).
  eapply IH; [exact E2|]. eapply callback_kept; [exact E1|apply L|exact L].
Qed.

Lemma callback_loads c s s' o : nwf s -> callback_ok c -> call_back c s = NDone tt s' o -> n_rx s <> RX_BUFFERED ->
  n_rx s' <> RX_BUFFERED \/ exists ch raw, c = CbRecv ch raw /\ loaded s' ch raw.
Proof.
  intros W Hc E H. destruct c as [ch d| |]; cbn [call_back] in E.
  - unfold recv_complete in E. destruct (n_rx s) eqn:Ex; [left; injection E as <- <-; congruence| |congruence].
    right. exists ch, d. split; [reflexivity|]. cbn in Hc. destruct Hc as (Hch & Hb & Hl). destruct W as (R & _).
    do 6 (destruct d as [|? d]; [cbn in Hl; lia|]). set (raw := z :: z0 :: z1 :: z2 :: z3 :: z4 :: d) in *.
    change (splice (n_rx_buf s) 0 raw) with (z :: z0 :: z1 :: z2 :: z3 :: z4 :: d ++ skipn (length raw) (n_rx_buf s)) in E. cbv zeta iota in E. apply ndone_inj in E. destruct E as [<- <-].
    assert (byte z /\ byte z0 /\ byte z1 /\ byte z2 /\ byte z3 /\ byte z4) as (B1 & B2 & B3 & B4 & B5 & B6).
    { rewrite Forall_forall in Hb. repeat split; apply Hb; subst raw; cbn; tauto. }
    set (buf := z :: z0 :: z1 :: z2 :: z3 :: z4 :: _).
    set (s1 := set_rx RX_BUFFERED ch (Z.of_nat (length raw) - REUSE_PAYLOAD_HEADER_LEN) buf s).
    assert (P : n_rx (persist_remote_endpoint ch (be32 z z0 z1 z2) (z3 * 256 + z4) s1) = n_rx s1 /\
                n_rx_ch (persist_remote_endpoint ch (be32 z z0 z1 z2) (z3 * 256 + z4) s1) = n_rx_ch s1 /\
                n_rx_len (persist_remote_endpoint ch (be32 z z0 z1 z2) (z3 * 256 + z4) s1) = n_rx_len s1 /\
                n_rx_buf (persist_remote_endpoint ch (be32 z z0 z1 z2) (z3 * 256 + z4) s1) = n_rx_buf s1).
    { unfold persist_remote_endpoint. destruct (ch =? CH_CONTROL_PORT); [repeat split|]. destruct (ch =? CH_MIDI_PORT); repeat split. }
    destruct P as (P1 & P2 & P3 & P4). unfold loaded. rewrite P1, P2, P3, P4.
    split; [reflexivity|]. split; [reflexivity|]. split; [reflexivity|]. split; [|split].
    + subst s1 buf raw. cbn [n_rx_len n_rx_buf set_rx]. unfold REUSE_PAYLOAD_HEADER_LEN. cbn [skipn].
      replace (Z.to_nat _) with (length d) by (cbn [length]; lia). rewrite firstn_app, firstn_all, Nat.sub_diag. cbn [firstn]. apply app_nil_r.
    + intros ->. change (to_be32 (be32 z z0 z1 z2) ++ [u8 ((z3 * 256 + z4) / 256); u8 (z3 * 256 + z4)] = firstn 6 raw). rewrite to_be32_be32, port_bytes by assumption. reflexivity.
    + intros ->. change (to_be32 (be32 z z0 z1 z2) ++ [u8 ((z3 * 256 + z4) / 256); u8 (z3 * 256 + z4)] = firstn 6 raw). rewrite to_be32_be32, port_bytes by assumption. reflexivity.
  - left. unfold recv_error in E. destruct (n_rx s) eqn:Ex; injection E as <- <-; cbn; congruence.
  - left. injection E as <- <-. exact H.
Qed.
Lemma callbacks_load cbs s s' o : nwf s -> Forall callback_ok cbs -> call_backs cbs s = NDone tt s' o -> n_rx s <> RX_BUFFERED ->
  n_rx s' <> RX_BUFFERED \/ exists ch raw, In (CbRecv ch raw) cbs /\ loaded s' ch raw.
Proof.
  revert s s' o. induction cbs as [|c cbs IH]; intros s s' o W Hc E H; [left; injection E as <- <-; exact H|].
  inversion_clear Hc as [|? ? Hc1 Hc2]. cbn [call_backs] in E. apply nthen_inv in E. destruct E as (s1 & o1 & o2 & E1 & E2 & ->).
  pose proof (reach_wf _ _ _ W (moves_callback c Hc1 _ _ _ W E1)) as W1.
  destruct (callback_loads c s s1 o1 W Hc1 E1 H) as [H1|(ch & raw & -> & L)].
  - destruct (IH _ _ _ W1 Hc2 E2 H1) as [H2|(ch & raw & Hi & L)]; [left; exact H2|]. right. exists ch, raw. split; [right; exact Hi|exact L].
  - right. exists ch, raw. split; [left; reflexivity|]. eapply callbacks_kept; [exact E2|exact L].
Qed.

Lemma callbacks_idle cbs s s' o : call_backs cbs s = NDone tt s' o -> n_tx s = TX_IDLE -> n_tx s' = TX_IDLE /\ (o = [] \/ exists o', o = NSent :: o').
Proof.
  revert s s' o. induction cbs as [|c cbs IH]; intros s s' o E H; [injection E as <- <-; split; [exact H|left; reflexivity]|].
  cbn [call_backs] in E. apply nthen_inv in E. destruct E as (s1 & o1 & o2 & E1 & E2 & ->).
  assert (n_tx s1 = TX_IDLE /\ (o1 = [] \/ o1 = [NSent])) as [H1 Ho].
  { destruct c as [c d| |]; cbn [call_back] in E1.
    - unfold recv_complete in E1. destruct (n_rx s); try (injection E1 as <- <-; split; [exact H|left; reflexivity]).
      destruct (splice _ _ _) as [|? [|? [|? [|? [|? [|? ?]]]]]]; try discriminate. injection E1 as <- <-. split; [|left; reflexivity].
      unfold persist_remote_endpoint. destruct (c =? _); [exact H|]. destruct (c =? _); exact H.
    - unfold recv_error in E1. destruct (n_rx s); injection E1 as <- <-; (split; [exact H|left; reflexivity]).
    - injection E1 as <- <-. split; [reflexivity|right; reflexivity]. }
  destruct (IH _ _ _ E2 H1) as [H2 Ho2]. split; [exact H2|]. destruct Ho as [-> | ->]; [exact Ho2|]. right. eexists. reflexivity.
Qed.

(** Between polls nothing is left unprocessed. *)
Lemma rx_between ops s tr : nhistory ops s tr -> n_rx s <> RX_BUFFERED.
Proof.
  revert s tr. induction ops as [|op ops IH] using rev_ind; intros s tr H.
  - destruct H as [_ [= <- <-]]. discriminate.
  - apply history_step in H. destruct H as (s1 & tr1 & o & H & Hop & E & ->). specialize (IH _ _ H). clear H.
    destruct op as [cbs a b|d|d|]; cbn [net_step] in E.
    + unfold net_tick in E. apply nthen_inv in E. destruct E as (s2 & ? & ? & _ & E & _). apply nthen_inv in E. destruct E as (s3 & ? & ? & E3 & E & _).
      apply nthen_inv in E. destruct E as (s4 & ? & ? & E4 & E & _). apply nthen_inv in E. destruct E as (s5 & ? & ? & E5 & E & _).
      assert (H3 : n_rx s3 <> RX_BUFFERED).
      { rewrite get_eq in E3. destruct (n_rx s2) eqn:E2; try (injection E3 as <- <-; congruence).
        apply nthen_inv in E3. destruct E3 as (s6 & ? & ? & _ & E3 & _). apply nthen_inv in E3. destruct E3 as (s7 & ? & ? & _ & E3 & _).
        injection E3 as <- <-. discriminate. }
      assert (H4 : n_rx s4 = n_rx s3).
      { unfold send_buffered_packet in E4. rewrite get_eq in E4. destruct (n_tx s3); try (injection E4 as <- <-; reflexivity). }
      assert (H5 : n_rx s5 = n_rx s4).
      { rewrite get_eq in E5. destruct (n_tx s4) eqn:E6; try (injection E5 as <- <-; reflexivity). unfold send_receiver_feedback in E5. rewrite get_eq in E5.
        destruct (n_frame s4 <? _); [injection E5 as <- <-; reflexivity|]. destruct (n_last_seq s4 =? _); [injection E5 as <- <-; reflexivity|].
        unfold nthen, net_send, nbind, nget in E5. rewrite E6 in E5. cbn -[splice receiver_feedback] in E5. injection E5 as <- <-. reflexivity. }
      rewrite get_eq in E. destruct (n_rx s5) eqn:E7; [|injection E as <- <-; congruence|congruence].
      destruct b; injection E as <- <-; cbn; congruence.
    + unfold net_write in E. rewrite get_eq in E. destruct (pack_rtp_midi_packet _ _ _ _) as [[p q]|]; [|injection E as <- <-; exact IH].
      unfold nthen, net_send, nbind, nget, nmod in E. cbn -[splice Z.ltb] in E. destruct (n_tx s1); try (injection E as <- <-; exact IH).
      destruct (_ <? _); injection E as <- <-; exact IH.
    + injection E as <- <-. exact IH.
    + apply nbind_inv in E. destruct E as (? & s2 & ? & ? & E & E2 & ->). injection E2 as <- <-. unfold net_read in E.
      destruct (RingBufModel.ring_buf_read (n_ring s1)) as [[[] [v|]] r y|]; try discriminate; injection E as <- <- <-; exact IH.
Qed.

(** ** One packet *)
Lemma reply_short ch d p : reply ch d = Some p -> (length d >= 17)%nat -> (length p <= 36)%nat.
Proof.
  unfold reply. destruct (eqb_list _ _); [|discriminate]. destruct (eqb_list (field 2 2 d) IN && _) eqn:E.
  - intros [= <-] H. unfold acceptance, own_ssrc, field. rewrite !app_length, firstn_length. cbn [length repeat]. lia.
  - match goal with |- (if ?b then _ else _) = _ -> _ => destruct b eqn:E2 end; [|discriminate]. intros [= <-] H.
    unfold sync_answer, own_ssrc, bytes32, field. rewrite !app_length, !firstn_length. cbn [length repeat]. lia.
Qed.

Lemma no_session_no_reply ch d : session_data d = false -> reply ch d = None.
Proof.
  unfold session_data, reply. destruct d as [|x [|y d]]; [reflexivity| |].
  - intros _. change (field 0 2 [x]) with [x]. unfold eqb_list. destruct (list_eq_dec _ _ _); [discriminate|reflexivity].
  - intros H. change (field 0 2 (x :: y :: d)) with [x; y]. rewrite eqb_list_2, H. reflexivity.
Qed.

(** The packet and what follows it in the buffer. *)
Lemma split_packet s ch raw : nwf s -> loaded s ch raw ->
  exists left, skipn 6 (n_rx_buf s) = skipn 6 raw ++ left /\ (36 <= length (skipn 6 raw ++ left))%nat /\ Z.of_nat (length (skipn 6 raw)) = n_rx_len s /\
    0 <= n_rx_len s <= 1454 /\ Forall byte (skipn 6 raw).
Proof.
  intros (R & _ & _ & _ & B & X) (L1 & L2 & L3 & L4 & _). specialize (X L1). exists (skipn (Z.to_nat (n_rx_len s)) (skipn 6 (n_rx_buf s))).
  assert (E : skipn 6 (n_rx_buf s) = skipn 6 raw ++ skipn (Z.to_nat (n_rx_len s)) (skipn 6 (n_rx_buf s))) by (rewrite <- L4; symmetry; apply firstn_skipn).
  split; [exact E|]. rewrite <- E. rewrite !skipn_length, R. split; [lia|]. split; [lia|]. split; [exact X|].
  rewrite <- L4. apply forall_firstn, forall_skipn', B.
Qed.

Definition same_peer (s s' : net) : Prop := n_ip s' = n_ip s /\ n_control_port s' = n_control_port s /\ n_midi_port s' = n_midi_port s.

Lemma send_idle ch p s s' o : n_tx s = TX_IDLE -> (length p <= 36)%nat -> net_send ch p s = NDone tt s' o ->
  o = [NQueued ch p] /\ n_tx s' = TX_QUEUED /\ n_tx_ch s' = ch /\ n_tx_len s' = Z.of_nat (length p) /\ n_tx_buf s' = splice (n_tx_buf s) 6 p /\ same_peer s s'.
Proof.
  intros E Hp H. unfold net_send in H. rewrite get_eq, E in H. unfold MW_RX_TX_BUFFER_SIZE, REUSE_PAYLOAD_HEADER_LEN in H.
  replace (1460 <? _) with false in H by lia. unfold nthen, nbind, nmod, nlog in H. injection H as <- <-. repeat split.
Qed.

Lemma packet_reply s s' o ch raw : nwf s -> loaded s ch raw -> (ch = 1 \/ ch = 2) -> n_tx s = TX_IDLE ->
  process_udp_data ch (skipn 6 (n_rx_buf s)) (n_rx_len s) s = NDone tt s' o ->
  match reply ch (skipn 6 raw) with
  | Some p => o = [NQueued ch p] /\ n_tx s' = TX_QUEUED /\ n_tx_ch s' = ch /\ n_tx_len s' = Z.of_nat (length p) /\ n_tx_buf s' = splice (n_tx_buf s) 6 p /\ same_peer s s'
  | None => o = [] /\ n_tx s' = TX_IDLE
  end.
Proof.
  intros W L Hc Hi E. destruct (split_packet s ch raw W L) as (left & Eb & Hl & Hlen & Hr & Bd). rewrite Eb in E. set (d := skipn 6 raw) in *.
  unfold process_udp_data in E. unfold u16 in E. rewrite Z.mod_small in E by lia. rewrite <- Hlen in E.
  destruct (answers ch d left (n_apple s) Hc Bd Hl) as (code & ended & a & EA).
  pose proof (reply_long ch d) as RL.
  destruct Hc as [-> | ->].
  - change (1 =? CH_CONTROL_PORT) with true in E. cbv iota in E. rewrite get_eq in E. change (1 =? 1) with true in EA. cbv iota in EA. rewrite EA in E.
    apply nthen_inv in E. destruct E as (s1 & o1 & o2 & E1 & E & ->). injection E1 as <- <-. apply nthen_inv in E. destruct E as (s2 & o3 & o4 & E2 & E3 & ->).
    destruct (reply 1 d) as [p|] eqn:Er.
    + cbn [send_all] in E2. apply nthen_inv in E2. destruct E2 as (s3 & o5 & o6 & E2 & E4 & ->). injection E4 as <- <-.
      apply send_idle in E2; [|exact Hi|eapply reply_short; [exact Er|]; specialize (RL _ eq_refl); lia].
      assert (ended = false) as ->.
      { destruct (answers_long 1 d left (n_apple s) (or_introl eq_refl) Bd) as [a' EL]; [specialize (RL _ eq_refl); lia|exact Hl|].
        change (1 =? 1) with true in EL. cbv iota in EL. rewrite EA in EL. injection EL as _ -> _ _. clear - Er RL.
        specialize (RL _ eq_refl). unfold reply in Er. unfold ends_session. rewrite field_04 by lia. destruct (eqb_list (field 0 2 d) _); [|discriminate].
        destruct (eqb_list (field 2 2 d) IN && _) eqn:EI; [|discriminate]. apply andb_prop in EI. destruct EI as [EI _]. apply eqb_list_true in EI. rewrite EI.
        change (1 =? 1) with true. cbn [andb]. apply not_true_is_false. intros H. apply eqb_list_true in H.
        change IN with ([73] ++ [78]) in H. change BY with ([66] ++ [89]) in H. rewrite !app_assoc in H. apply app_inj_tail in H. destruct H as [_ H]. discriminate H. }
      injection E3 as <- <-. destruct E2 as (-> & E2). split; [reflexivity|]. exact E2.
    + injection E2 as <- <-. destruct ended; injection E3 as <- <-; split; try reflexivity; exact Hi.
  - change (2 =? CH_CONTROL_PORT) with false in E. change (2 =? CH_MIDI_PORT) with true in E. cbv iota in E. rewrite signature_eq in E by (rewrite app_length; lia).
    rewrite Nat2Z.id, firstn_app, firstn_all, Nat.sub_diag in E. cbn [firstn] in E. rewrite app_nil_r in E.
    destruct (session_data d) eqn:Es.
    + rewrite get_eq in E. change (2 =? 1) with false in EA. cbv iota in EA. rewrite EA in E.
      apply nthen_inv in E. destruct E as (s1 & o1 & o2 & E1 & E & ->). injection E1 as <- <-.
      destruct (reply 2 d) as [p|] eqn:Er.
      * cbn [send_all] in E. apply nthen_inv in E. destruct E as (s3 & o5 & o6 & E2 & E4 & ->). injection E4 as <- <-.
        apply send_idle in E2; [|exact Hi|eapply reply_short; [exact Er|]; specialize (RL _ eq_refl); lia].
        destruct E2 as (-> & E2). split; [reflexivity|]. exact E2.
      * injection E as <- <-. split; [reflexivity|exact Hi].
    + rewrite (no_session_no_reply 2 d Es). destruct (process_rtp_midi_packet _ _) as [c e q|]; [|discriminate].
      apply nthen_inv in E. destruct E as (s1 & o1 & o2 & E1 & E & ->). apply emit_all_state in E1. destruct E1 as (-> & x & r & ->).
      destruct q; injection E as <- <-; split; try reflexivity; exact Hi.
Qed.

(** ** One poll *)
Lemma send_content buf hdr p : length buf = 1460%nat -> length hdr = 6%nat -> (length p <= 36)%nat ->
  firstn (Z.to_nat (Z.of_nat (length p) + REUSE_PAYLOAD_HEADER_LEN)) (splice (splice buf 6 p) 0 hdr) = hdr ++ p.
Proof.
  intros H1 H2 H3. unfold REUSE_PAYLOAD_HEADER_LEN. rewrite <- (firstn_skipn 6 (splice (splice buf 6 p) 0 hdr)) at 1.
  rewrite skipn_splice; [|exact H2|rewrite splice_length; change (Z.to_nat 6) with 6%nat; lia]. rewrite splice_at6 by lia.
  assert (E : firstn 6 (splice (splice buf 6 p) 0 hdr) = hdr).
  { generalize (splice buf 6 p). intros b. change (splice b 0 hdr) with (hdr ++ skipn (0 + length hdr) b). rewrite firstn_app, H2, Nat.sub_diag. rewrite firstn_O, app_nil_r. apply firstn_all2. lia. }
  rewrite E. replace (Z.to_nat _) with (length (hdr ++ p)) by (rewrite app_length; lia). rewrite app_assoc, firstn_app, firstn_all, Nat.sub_diag. cbn [firstn]. apply app_nil_r.
Qed.

Lemma send_step ok s s' o ch hdr p old : send_buffered_packet ok s = NDone tt s' o ->
  n_tx s = TX_QUEUED -> n_tx_ch s = ch -> n_tx_len s = Z.of_nat (length p) -> n_tx_buf s = splice old 6 p -> length old = 1460%nat -> (length p <= 36)%nat ->
  to_be32 (n_ip s) ++ [u8 ((if ch =? 1 then n_control_port s else n_midi_port s) / 256); u8 (if ch =? 1 then n_control_port s else n_midi_port s)] = hdr ->
  o = [NSend ch (hdr ++ p) ok].
Proof.
  intros E H1 H2 H3 H4 H5 H6 H7. unfold send_buffered_packet in E. rewrite get_eq, H1, H2, H3, H4 in E. change CH_CONTROL_PORT with 1 in E. rewrite H7 in E.
  cbv zeta in E. rewrite send_content in E; [|exact H5|subst hdr; reflexivity|exact H6]. unfold nthen, nbind, nmod, nlog in E. apply ndone_inj in E. destruct E as [_ <-]. reflexivity.
Qed.
Lemma honest_no_sent tr o : honest (tr ++ o) -> in_flight tr = None -> forall o', o <> NSent :: o'.
Proof. intros H E o' ->. apply (H tr o' eq_refl E). Qed.

Lemma feedback_is a : is_feedback 1 (receiver_feedback a).
Proof. split; [reflexivity|]. eexists. reflexivity. Qed.

Lemma rest_of_tick s s' o b :
  nthen (nbind nget (fun s => match n_tx s with TX_IDLE => send_receiver_feedback | _ => nret tt end))
     (nbind nget (fun s =>
        match n_rx s with
        | RX_IDLE => nthen (nlog (NArmed b)) (if b then nmod (set_rx_state RX_ARMED) else nret tt)
        | _ => nret tt
        end)) s = NDone tt s' o ->
  forall e, In e o -> (exists c q, e = NQueued c q /\ is_feedback c q) \/ e = NArmed b.
Proof.
  intros E. apply nthen_inv in E. destruct E as (s1 & o1 & o2 & E1 & E2 & ->). intros e He. apply in_app_or in He. destruct He as [He|He].
  - left. rewrite get_eq in E1. destruct (n_tx s) eqn:E6; try (injection E1 as <- <-; contradiction). unfold send_receiver_feedback in E1. rewrite get_eq in E1.
    destruct (n_frame s <? _); [injection E1 as <- <-; contradiction|]. destruct (n_last_seq s =? _); [injection E1 as <- <-; contradiction|].
    unfold nthen, net_send, nbind, nget in E1. rewrite E6 in E1. cbn -[splice receiver_feedback] in E1. injection E1 as <- <-.
    destruct He as [<-|[]]. eexists _, _. split; [reflexivity|apply feedback_is].
  - right. rewrite get_eq in E2. destruct (n_rx s1); try (injection E2 as <- <-; contradiction). destruct b; injection E2 as <- <-; destruct He as [<-|[]]; reflexivity.
Qed.


Theorem tick_reply ops s tr cbs send_ok recv_ok s' o ch d :
  nhistory ops s tr -> Forall callback_ok cbs -> net_step (NTick cbs send_ok recv_ok) s = NDone tt s' o -> honest (tr ++ o) ->
  in_flight tr = None -> accepted tr = handed_over tr -> In (NGot ch d) o -> ch = 1 \/ ch = 2 ->
  exists raw later, In (CbRecv ch raw) cbs /\ d = skipn 6 raw /\ quiet later /\
    o = NGot ch d :: (match reply ch d with Some p => [NQueued ch p; NSend ch (firstn 6 raw ++ p) send_ok] | None => [] end) ++ later.
Proof.
  intros Hh Hc E Ho Hf Ha Hin Hch. pose proof (history_reach _ _ _ Hh) as R. pose proof (reach_wf _ _ _ boot_wf R) as W.
  destruct (history_flight _ _ _ Hh) as [F _]. pose proof (history_accept _ _ _ Hh (honest_prefix _ _ Ho)) as HA.
  assert (Hi : n_tx s = TX_IDLE).
  { unfold flight_inv, waiting in *. destruct (n_tx s); [reflexivity| |congruence]. rewrite Ha in HA. rewrite <- (app_nil_r (handed_over tr)) in HA at 1.
    apply app_inv_head in HA. discriminate. }
  pose proof (rx_between _ _ _ Hh) as Hb. cbn [net_step] in E. unfold net_tick in E.
  apply nthen_inv in E. destruct E as (s1 & o1 & o2' & E1 & E & ->).
  destruct (callbacks_idle _ _ _ _ E1 Hi) as [Hi1 Ho1]. assert (o1 = []) as ->.
  { destruct Ho1 as [H|[o' ->]]; [exact H|]. exfalso. exact (honest_no_sent _ _ Ho Hf _ eq_refl). }
  cbn [app] in *. pose proof (reach_wf _ _ _ W (moves_callbacks cbs Hc _ _ _ W E1)) as W1.
  apply nthen_inv in E. destruct E as (s2 & o2 & o3' & E2 & E & ->). rewrite get_eq in E2.
  apply nthen_inv in E. destruct E as (s3 & o3 & o4 & E3 & E4 & ->). pose proof (rest_of_tick _ _ _ _ E4) as Q. 
  assert (Q' : quiet o4) by (intros e He; destruct (Q e He) as [X|X]; [left; exact X|right; eexists; exact X]).
  destruct (callbacks_load cbs s s1 [] W Hc E1 Hb) as [Hn|(ch1 & raw & Hin1 & L)].
  - exfalso. destruct (n_rx s1); try congruence; injection E2 as <- <-; unfold send_buffered_packet in E3; rewrite get_eq, Hi1 in E3; injection E3 as <- <-; cbn [app] in Hin;
      (destruct (Q _ Hin) as [(c & q & X & _)|X]; discriminate X).
  - pose proof L as (L1 & L2 & L3 & L4 & L5 & L6). rewrite L1 in E2. change (Z.to_nat REUSE_PAYLOAD_HEADER_LEN) with 6%nat in E2. cbv zeta in E2. rewrite L4, L2 in E2.
    apply nthen_inv in E2. destruct E2 as (s5 & o5 & o6 & E5 & E2 & ->). apply ndone_inj in E5. destruct E5 as [<- <-]. apply nthen_inv in E2. destruct E2 as (s6 & o7 & o8 & E6 & E7 & ->).
    injection E7 as <- <-. rewrite app_nil_r in *.
    rewrite <- app_assoc in Hin. destruct (Z.eq_dec ch1 1) as [K|K]; [|destruct (Z.eq_dec ch1 2) as [K'|K']].
    3: { exfalso. unfold process_udp_data, CH_CONTROL_PORT, CH_MIDI_PORT in E6. replace (ch1 =? 1) with false in E6 by lia. replace (ch1 =? 2) with false in E6 by lia.
         injection E6 as <- <-. unfold send_buffered_packet in E3. rewrite get_eq in E3. change (n_tx (set_rx_state RX_IDLE s1)) with (n_tx s1) in E3. rewrite Hi1 in E3.
         injection E3 as <- <-. cbn [app] in Hin. destruct Hin as [Hin|Hin]; [injection Hin as -> _; lia|]. destruct (Q _ Hin) as [(c & q & X & _)|X]; discriminate X. }
    all: assert (H12 : ch1 = 1 \/ ch1 = 2) by lia; pose proof (packet_reply s1 s6 o7 ch1 raw W1 L H12 Hi1 E6) as PR.
    all: assert (Hd : ch1 = ch /\ skipn 6 raw = d /\ o7 ++ o3 = match reply ch1 (skipn 6 raw) with Some p => [NQueued ch1 p; NSend ch1 (firstn 6 raw ++ p) send_ok] | None => [] end);
      [|destruct Hd as (-> & Hs & Hd); exists raw, o4; split; [exact Hin1|]; split; [symmetry; exact Hs|]; split; [exact Q'|]; rewrite Hs in Hd |- *; cbn [app]; rewrite <- Hd, app_assoc; reflexivity].
    all: assert (Hd : o7 ++ o3 = match reply ch1 (skipn 6 raw) with Some p => [NQueued ch1 p; NSend ch1 (firstn 6 raw ++ p) send_ok] | None => [] end).
    1, 3: clear Hin; destruct (reply ch1 (skipn 6 raw)) as [p|] eqn:Er.
    1, 3: destruct PR as (-> & P1 & P2 & P3 & P4 & P5 & P6 & P7); cbn [app]; f_equal;
          apply (send_step send_ok (set_rx_state RX_IDLE s6) s3 o3 ch1 (firstn 6 raw) p (n_tx_buf s1) E3 P1 P2 P3 P4);
          [apply W1|eapply reply_short; [exact Er|]; apply reply_long in Er; lia|].
    1, 2: cbn [set_rx_state set_rx n_ip n_control_port n_midi_port]; rewrite P5, P6, P7; first [rewrite K; exact (L5 K)|rewrite K'; exact (L6 K')].
    1, 2: destruct PR as [-> P1]; unfold send_buffered_packet in E3; rewrite get_eq in E3; change (n_tx (set_rx_state RX_IDLE s6)) with (n_tx s6) in E3; rewrite P1 in E3;
          injection E3 as <- <-; reflexivity.
    all: rewrite (app_assoc o7), Hd in Hin; cbn [app] in Hin; destruct Hin as [Hin|Hin]; [split; [congruence|split; [congruence|exact Hd]]|].
    all: exfalso; apply in_app_or in Hin; destruct Hin as [Hin|Hin];
      [destruct (reply ch1 (skipn 6 raw)); cbn in Hin; intuition discriminate|destruct (Q _ Hin) as [(c & q & X & _)|X]; discriminate X].
Qed.
