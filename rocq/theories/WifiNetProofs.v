(** One poll of the network, with the datagrams the interface copes with. *)
From Verif Require Import Base BaseLemmas RingBufModel RingBufSpec RingBufProofs RtpModel AppleModel NetModel.
From Verif Require Import RxModel RxSpec RtpSpec NetSpec NetProofs NetReplyProofs RtpProofs WifiModel WifiSpec.
Local Notation byte := RtpSpec.byte.

(** The network layer with bytes [q] waiting to be read. *)
Definition air (n : net) (q : list Z) : Prop :=
  nwf n /\ ring_repr (n_ring n) 1460 q /\ (q <> [] -> n_recv_data n = true).
Definition same_air (n n' : net) : Prop := n_ring n' = n_ring n /\ n_recv_data n' = n_recv_data n /\ n_rx n' = n_rx n.
Lemma same_air_refl n : same_air n n.
Proof. repeat split. Qed.
Lemma same_air_trans a b c : same_air a b -> same_air b c -> same_air a c.
Proof. intros (A & B & C) (D & E & F). repeat split; congruence. Qed.
Lemma air_same n n' q : air n q -> nwf n' -> same_air n n' -> air n' q.
Proof. intros (_ & R & V) W (A & B & _). split; [exact W|]. rewrite A, B. auto. Qed.

Lemma then_done {m k : N unit} {s s1 s2 o1 o2} : m s = NDone tt s1 o1 -> k s1 = NDone tt s2 o2 -> nthen m k s = NDone tt s2 (o1 ++ o2).
Proof. intros E1 E2. unfold nthen, nbind. rewrite E1, E2. reflexivity. Qed.

(** ** The ring *)
Lemma ring_write r q b : ring_repr r 1460 q -> is_byte b -> (length q < 1459)%nat ->
  exists r', ring_buf_write b r = Done RB_OK r' [] /\ ring_repr r' 1460 (q ++ [b]).
Proof.
  intros Hr Hb Hl. destruct (ring_step_refines r 1460 q (RWrite b) Hr Hb) as (r' & E & R).
  cbn [ring_step fifo_step] in *. assert (L : Nat.ltb (length q) (Z.to_nat (1460 - 1)) = true) by (apply Nat.ltb_lt; lia). rewrite L in *. cbn [fst snd] in *.
  exists r'. split; [|exact R]. unfold bind, ret in E.
  destruct (ring_buf_write b r) as [a r1 o|f]; [|discriminate].
  injection E as -> -> Eo. rewrite app_nil_r in Eo. subst. reflexivity.
Qed.
Lemma ring_read r x q : ring_repr r 1460 (x :: q) ->
  exists r', ring_buf_read r = Done (RB_OK, Some x) r' [] /\ ring_repr r' 1460 q.
Proof.
  intros Hr. destruct (ring_step_refines r 1460 (x :: q) RRead Hr I) as (r' & E & R).
  cbn [ring_step fifo_step fst snd] in *. exists r'. split; [|exact R]. unfold bind, ret in E.
  destruct (ring_buf_read r) as [[st d] r1 o|f]; [|discriminate]. cbn [fst snd] in E.
  injection E as -> -> -> Eo. rewrite app_nil_r in Eo. subst. reflexivity.
Qed.
Lemma ring_ready r q : ring_repr r 1460 q -> ring_buf_can_read r = match q with [] => false | _ => true end.
Proof.
  intros Hr. destruct (ring_step_refines r 1460 q RCanRead Hr I) as (r' & E & _).
  cbn [ring_step fifo_step fst snd] in E. unfold bind, gets, ret in E. congruence.
Qed.
Lemma air_ready n q : air n q -> net_read_ready n = match q with [] => false | _ => true end.
Proof.
  intros (_ & R & V). unfold net_read_ready. rewrite (ring_ready _ _ R). destruct q; [destruct (n_recv_data n); reflexivity|]. rewrite V by discriminate. reflexivity.
Qed.
Lemma air_boot : air net_boot [].
Proof.
  split; [exact boot_wf|]. split; [|intros X; contradiction X; reflexivity].
  apply (ring_init_repr (repeat 0 1460) 1460); [lia|rewrite repeat_length; lia].
Qed.
Lemma air_read n x q : air n (x :: q) -> exists n', net_read n = NDone x n' [] /\ air n' q /\ n_rx n' = n_rx n.
Proof.
  intros (W & R & V). destruct (ring_read _ _ _ R) as (r' & E & R'). unfold net_read. rewrite E. eexists. split; [reflexivity|]. split; [|reflexivity].
  split; [|split; [exact R'|intros _; apply V; discriminate]]. exact (atom_wf _ _ _ W (at_emit _ _ _)).
Qed.
Lemma air_emit l : forall n q, air n q -> Forall byte l -> (length q + length l <= 1459)%nat ->
  exists n', emit_all l n = NDone tt n' [] /\ air n' (q ++ l) /\ n_rx n' = n_rx n.
Proof.
  induction l as [|b l IH]; intros n q (W & R & V) B L.
  - exists n. rewrite app_nil_r. split; [reflexivity|]. split; [exact (conj W (conj R V))|reflexivity].
  - cbn [length] in L. destruct (ring_write _ q b R (Forall_inv B) ltac:(lia)) as (r' & E & R').
    cbn [emit_all]. unfold nthen, nbind, emit_callback at 1. rewrite E.
    destruct (IH (set_emit true r' n) (q ++ [b])) as (n' & E' & A' & X').
    + split; [exact (atom_wf _ _ _ W (at_emit _ _ _))|]. split; [exact R'|reflexivity].
    + exact (Forall_inv_tail B).
    + rewrite app_length. cbn [length]. lia.
    + rewrite E'. exists n'. rewrite <- app_assoc in A'. split; [reflexivity|]. split; [exact A'|exact X'].
Qed.

(** ** Sending *)
Lemma send_same ch d n : exists n' o, net_send ch d n = NDone tt n' o /\ same_air n n'.
Proof.
  unfold net_send. rewrite get_eq. destruct (n_tx n); [|eexists _, _; split; [reflexivity|apply same_air_refl]..].
  destruct (_ <? _); eexists _, _; (split; [reflexivity|repeat split]).
Qed.
Lemma sends_same l : forall n, exists n' o, send_all l n = NDone tt n' o /\ same_air n n'.
Proof.
  induction l as [|[ch d] l IH]; intros n; [eexists _, _; split; [reflexivity|apply same_air_refl]|].
  destruct (send_same ch d n) as (n1 & o1 & E1 & S1). destruct (IH n1) as (n2 & o2 & E2 & S2).
  exists n2, (o1 ++ o2). cbn [send_all]. unfold nthen, nbind. rewrite E1, E2. split; [reflexivity|]. exact (same_air_trans _ _ _ S1 S2).
Qed.
Lemma write_same d n : exists n' o, net_write d n = NDone tt n' o /\ same_air n n'.
Proof.
  unfold net_write. rewrite get_eq. destruct (pack_rtp_midi_packet _ _ _ _) as [[p q]|]; [|eexists _, _; split; [reflexivity|apply same_air_refl]].
  destruct (send_same CH_MIDI_PORT p (set_send_seq q n)) as (n1 & o1 & E1 & S1). unfold nthen, nbind, nmod. rewrite E1. eexists _, _. split; [reflexivity|exact S1].
Qed.
Lemma buffered_same ok n : exists n' o, send_buffered_packet ok n = NDone tt n' o /\ same_air n n'.
Proof. unfold send_buffered_packet. rewrite get_eq. destruct (n_tx n); eexists _, _; (split; [reflexivity|repeat split]). Qed.
Lemma feedback_same n : exists n' o, nbind nget (fun s => match n_tx s with TX_IDLE => send_receiver_feedback | _ => nret tt end) n = NDone tt n' o /\ same_air n n'.
Proof.
  rewrite get_eq. destruct (n_tx n); [|eexists _, _; split; [reflexivity|apply same_air_refl]..].
  unfold send_receiver_feedback. rewrite get_eq. destruct (_ <? _); [eexists _, _; split; [reflexivity|apply same_air_refl]|].
  destruct (_ =? _); [eexists _, _; split; [reflexivity|repeat split]|].
  destruct (send_same CH_CONTROL_PORT (receiver_feedback (n_apple n)) n) as (n1 & o1 & E1 & S1). unfold nthen, nbind. rewrite E1. cbn.
  eexists _, _. split; [reflexivity|exact S1].
Qed.
Lemma frames_same d n : exists n' o, net_vsync d n = NDone tt n' o /\ same_air n n'.
Proof. eexists _, _. split; [reflexivity|repeat split]. Qed.

(** ** Callbacks *)
Definition rx_of (b : bool) : rx_state := if b then RX_ARMED else RX_IDLE.
Lemma callback_total c n : nwf n -> callback_ok c -> exists n' o, call_back c n = NDone tt n' o /\ nwf n' /\ n_ring n' = n_ring n /\ n_recv_data n' = n_recv_data n.
Proof.
  intros W Hc. assert (M := moves_callback c Hc). destruct c as [ch d| |].
  - cbn [call_back]. unfold recv_complete. destruct (n_rx n) eqn:Ex; [eexists _, _; split; [reflexivity|auto]| |eexists _, _; split; [reflexivity|auto]].
    assert (L : length (splice (n_rx_buf n) 0 d) = 1460%nat) by (destruct W as (R & _); cbn in Hc; rewrite splice_length; [exact R|cbn; lia]).
    destruct (splice (n_rx_buf n) 0 d) as [|a [|b [|c [|e [|f [|g buf]]]]]] eqn:Eb; try discriminate.
    set (n' := persist_remote_endpoint ch _ _ _). assert (E : call_back (CbRecv ch d) n = NDone tt n' []) by (cbn [call_back]; unfold recv_complete; rewrite Ex, Eb; reflexivity).
    exists n', []. split; [reflexivity|]. split; [exact (reach_wf _ _ _ W (M _ _ _ W E))|].
    unfold n', persist_remote_endpoint. destruct (ch =? _); [split; reflexivity|]. destruct (ch =? _); split; reflexivity.
  - cbn [call_back]. unfold recv_error. destruct (n_rx n) eqn:Ex; eexists _, _; (split; [reflexivity|]); (split; [|split; reflexivity]); [exact W| |exact W].
    apply (reach_wf _ _ _ W (M n _ [] W ltac:(cbn [call_back]; unfold recv_error; rewrite Ex; reflexivity))).
  - eexists _, _. split; [reflexivity|]. split; [|split; reflexivity]. exact (atom_wf _ _ _ W (at_sent _)).
Qed.
Lemma callbacks_total cbs : forall n, nwf n -> Forall callback_ok cbs -> n_rx n <> RX_BUFFERED ->
  exists n' o, call_backs cbs n = NDone tt n' o /\ nwf n' /\ n_ring n' = n_ring n /\ n_recv_data n' = n_recv_data n /\
    match n_rx n, first_receive cbs with
    | RX_ARMED, Some (Some (ch, raw)) => loaded n' ch raw
    | RX_ARMED, Some None => n_rx n' = RX_IDLE
    | x, _ => n_rx n' = x
    end.
Proof.
  induction cbs as [|c cbs IH]; intros n W Hc Hx.
  - exists n, []. cbn. destruct (n_rx n) eqn:E; auto 10.
  - destruct (callback_total c n W (Forall_inv Hc)) as (n1 & o1 & E1 & W1 & R1 & V1).
    cbn [call_backs]. unfold nthen, nbind. rewrite E1.
    destruct (n_rx n) eqn:Ex; [| |congruence].
    + (* not listening *)
      assert (X1 : n_rx n1 = RX_IDLE).
      { destruct c as [ch d| |]; cbn [call_back] in E1; [unfold recv_complete in E1; rewrite Ex in E1|unfold recv_error in E1; rewrite Ex in E1|]; injection E1 as <- _; exact Ex. }
      destruct (IH n1 W1 (Forall_inv_tail Hc)) as (n2 & o2 & E2 & W2 & R2 & V2 & L2); [congruence|]. rewrite E2. exists n2, (o1 ++ o2).
      split; [reflexivity|]. split; [exact W2|]. split; [congruence|]. split; [congruence|]. rewrite X1 in L2. exact L2.
    + destruct c as [ch d| |].
      * destruct (callback_loads (CbRecv ch d) n n1 o1 W (Forall_inv Hc) E1 ltac:(congruence)) as [X|(ch' & raw & [= <- <-] & L)].
        { exfalso. apply X. cbn [call_back] in E1. unfold recv_complete in E1. rewrite Ex in E1. destruct (splice _ _ _) as [|? [|? [|? [|? [|? [|? ?]]]]]]; try discriminate.
          injection E1 as <- _. unfold persist_remote_endpoint. destruct (ch =? _); [reflexivity|]. destruct (ch =? _); reflexivity. }
        assert (T : exists n2 o2, call_backs cbs n1 = NDone tt n2 o2 /\ nwf n2 /\ n_ring n2 = n_ring n1 /\ n_recv_data n2 = n_recv_data n1).
        { clear - W1 Hc. assert (Hc' := Forall_inv_tail Hc). revert n1 W1. induction cbs as [|c cbs IH]; intros n1 W1; [exists n1, []; auto|].
          destruct (callback_total c n1 W1 (Forall_inv Hc')) as (n2 & o2 & E2 & W2 & R2 & V2). cbn [call_backs]. unfold nthen, nbind. rewrite E2.
          destruct (IH ltac:(constructor; [exact (Forall_inv Hc)|exact (Forall_inv_tail Hc')]) (Forall_inv_tail Hc') n2 W2) as (n3 & o3 & E3 & W3 & R3 & V3). rewrite E3. exists n3, (o2 ++ o3). split; [reflexivity|]. split; [exact W3|]. split; congruence. }
        destruct T as (n2 & o2 & E2 & W2 & R2 & V2). rewrite E2. exists n2, (o1 ++ o2). split; [reflexivity|]. split; [exact W2|]. split; [congruence|]. split; [congruence|].
        cbn [first_receive]. exact (callbacks_kept _ _ _ _ E2 _ _ L).
      * assert (X1 : n_rx n1 = RX_IDLE) by (cbn [call_back] in E1; unfold recv_error in E1; rewrite Ex in E1; injection E1 as <- _; reflexivity).
        destruct (IH n1 W1 (Forall_inv_tail Hc)) as (n2 & o2 & E2 & W2 & R2 & V2 & L2); [congruence|]. rewrite E2. exists n2, (o1 ++ o2).
        split; [reflexivity|]. split; [exact W2|]. split; [congruence|]. split; [congruence|]. rewrite X1 in L2. exact L2.
      * assert (X1 : n_rx n1 = RX_ARMED) by (injection E1 as <- _; exact Ex).
        destruct (IH n1 W1 (Forall_inv_tail Hc)) as (n2 & o2 & E2 & W2 & R2 & V2 & L2); [congruence|]. rewrite E2. exists n2, (o1 ++ o2).
        split; [reflexivity|]. split; [exact W2|]. split; [congruence|]. split; [congruence|]. rewrite X1 in L2. exact L2.
Qed.

(** ** Session packets never fail *)
Lemma copy_total n b : (36 <= length b)%nat -> n <= 36 -> copy_in n b = Some (firstn (Z.to_nat n) b).
Proof. intros L H. unfold copy_in. destruct (Z.ltb_spec (Z.of_nat (length b)) n); [lia|reflexivity]. Qed.
Lemma invitation_total ch b len a : (36 <= length b)%nat -> exists x y z a', process_invitation ch b len a = ADone x y z a'.
Proof.
  intros L. unfold process_invitation. destruct (_ <? _); [eauto 8|]. unfold EXCHANGE_PACKET_LEN. rewrite copy_total by (assumption || lia).
  destruct (negb _); eauto 8.
Qed.
Lemma sync_total b len a : (36 <= length b)%nat -> exists x y z a', process_timestamp_sync b len a = ADone x y z a'.
Proof.
  intros L. unfold process_timestamp_sync. destruct (_ <? _); [eauto 8|]. unfold TIMESYNC_PKT_LEN. rewrite copy_total by (assumption || lia).
  destruct (negb _); [eauto 8|]. do 36 (destruct b as [|? b]; [exfalso; cbn [length] in L; lia|]). change (Z.to_nat 36) with 36%nat. cbn [firstn].
  destruct (_ =? 0); eauto 8.
Qed.
Lemma signature_total b len : (36 <= length b)%nat -> exists x, has_apple_midi_signature b len = Some x.
Proof. intros L. unfold has_apple_midi_signature. destruct (_ <? _); [eauto|]. destruct b as [|? [|? b]]; [cbn in L; lia..|]. eauto. Qed.
Lemma command_bytes (b : list Z) : (36 <= length b)%nat -> exists x y, zget b 2 = Some x /\ zget b 3 = Some y.
Proof. intros L. do 4 (destruct b as [|? b]; [exfalso; cbn [length] in L; lia|]). eexists _, _. split; reflexivity. Qed.
Lemma control_total b len a : (36 <= length b)%nat -> exists x y z a', process_session_control_packet b len a = ADone x y z a'.
Proof.
  intros L. unfold process_session_control_packet. destruct (signature_total b len L) as (x & ->). destruct x; [|eauto 8].
  destruct (command_bytes b L) as (u & v & -> & ->). destruct (_ && _); [apply invitation_total, L|]. destruct (_ && _); [eauto 8|]. destruct (_ && _); eauto 8.
Qed.
Lemma session_total b len a : (36 <= length b)%nat -> exists x y z a', process_session_midi_packet b len a = ADone x y z a'.
Proof.
  intros L. unfold process_session_midi_packet. destruct (signature_total b len L) as (x & ->). destruct x; [|eauto 8].
  destruct (command_bytes b L) as (u & v & -> & ->). destruct (_ && _); [apply invitation_total, L|]. destruct (_ && _); [apply sync_total, L|eauto 8].
Qed.

(** ** A datagram *)
Lemma items_length l : forall run, rest_ok run l -> (length (flat_map (fun it => midi_bytes (it_cmd it)) l) <= length (flat_map item_bytes l))%nat.
Proof.
  induction l as [|it l IH]; intros run H; [reflexivity|]. destruct H as ((more & last & Hd & _) & _ & _ & H). cbn [flat_map]. rewrite !app_length. specialize (IH _ H).
  unfold item_bytes at 1. rewrite Hd, !app_length. cbn [length]. destruct (it_omit it); [|lia].
  assert (X : (length (midi_bytes (it_cmd it)) <= S (length (tl (midi_bytes (it_cmd it)))))%nat) by (destruct (midi_bytes (it_cmd it)); cbn; lia). lia.
Qed.
Lemma stream_length sec : section_ok sec -> Z.of_nat (length (stream sec)) <= list_length sec.
Proof.
  intros (_ & H). unfold stream, list_length, list_bytes. rewrite app_length. destruct (sec_items sec) as [|it l]; [cbn; lia|].
  destruct H as (_ & _ & Ho & H & _). assert (X := items_length l _ H). cbn [flat_map]. rewrite !app_length. unfold item_bytes at 1.
  destruct (it_omit it) eqn:E; [|rewrite app_length; lia]. destruct (Ho E) as (st & ds & _ & N). discriminate.
Qed.
Lemma command_byte c : command_ok c -> Forall byte (midi_bytes c).
Proof.
  unfold byte. destruct c as [st ds|ds]; cbn [command_ok midi_bytes].
  - intros (S & _ & D). constructor; [unfold status_ok in S; lia|]. eapply Forall_impl; [|exact D]. unfold data_byte. lia.
  - intros D. constructor; [lia|]. apply Forall_app. split; [|repeat constructor; lia]. eapply Forall_impl; [|exact D]. unfold data_byte. lia.
Qed.
Lemma rest_commands l : forall run, rest_ok run l -> Forall (fun it => command_ok (it_cmd it)) l.
Proof. induction l as [|it l IH]; intros run H; [constructor|]. destruct H as (_ & C & _ & H). constructor; [exact C|eauto]. Qed.
Lemma section_commands sec : section_ok sec -> Forall (fun it => command_ok (it_cmd it)) (sec_items sec).
Proof.
  intros (_ & H). destruct (sec_items sec) as [|it l]; [constructor|]. destruct H as (_ & C & _ & H & _). constructor; [exact C|exact (rest_commands _ _ H)].
Qed.
Lemma stream_bytes sec : section_ok sec -> Forall byte (stream sec).
Proof.
  intros H. apply section_commands in H. unfold stream. induction H as [|it l C _ IH]; [constructor|]. cbn [flat_map]. apply Forall_app. split; [exact (command_byte _ C)|exact IH].
Qed.

Lemma packet_air n ch raw l : air n [] -> loaded n ch raw -> brings ch (skipn 6 raw) l ->
  exists n' o, nthen (nlog (NGot (n_rx_ch n) (firstn (Z.to_nat (n_rx_len n)) (skipn (Z.to_nat REUSE_PAYLOAD_HEADER_LEN) (n_rx_buf n)))))
    (nthen (process_udp_data (n_rx_ch n) (skipn (Z.to_nat REUSE_PAYLOAD_HEADER_LEN) (n_rx_buf n)) (n_rx_len n)) (nmod (set_rx_state RX_IDLE))) n = NDone tt n' o /\
    nwf n' /\ ring_repr (n_ring n') 1460 (RxSpec.stream l) /\ (RxSpec.stream l <> [] -> n_recv_data n' = true) /\ n_rx n' = RX_IDLE.
Proof.
  intros (W & R & V) L B. assert (L0 := L). destruct L0 as (L1 & L2 & L3 & L4 & _).
  assert (G := got_reach n). specialize (fun s' o => G s' o W L1). cbv zeta in G.
  destruct (split_packet n ch raw W L) as (lft & E1 & E2 & E3 & E4 & E5).
  change (skipn (Z.to_nat REUSE_PAYLOAD_HEADER_LEN) (n_rx_buf n)) with (skipn 6 (n_rx_buf n)) in *.
  assert (Len : (36 <= length (skipn 6 (n_rx_buf n)))%nat) by (rewrite E1; exact E2).
  assert (K : exists n' o, process_udp_data (n_rx_ch n) (skipn 6 (n_rx_buf n)) (n_rx_len n) n = NDone tt n' o /\ ring_repr (n_ring n') 1460 (RxSpec.stream l) /\ (RxSpec.stream l <> [] -> n_recv_data n' = true)).
  2:{ destruct K as (n1 & o1 & E & K1 & K2). set (m := nthen _ _) in *.
      assert (Em : m n = NDone tt (set_rx_state RX_IDLE n1) ([NGot (n_rx_ch n) (firstn (Z.to_nat (n_rx_len n)) (skipn 6 (n_rx_buf n)))] ++ o1 ++ [])).
      { unfold m, nthen, nbind, nlog. rewrite E. reflexivity. }
      eexists _, _. split; [exact Em|]. split; [exact (reach_wf _ _ _ W (G _ _ Em))|]. auto. }
  rewrite L2. unfold process_udp_data. assert (U : u16 (n_rx_len n) = n_rx_len n) by (unfold u16; rewrite Z.mod_small by lia; reflexivity). rewrite U. clear G.
  assert (Empty : forall n', same_air n n' -> ring_repr (n_ring n') 1460 (RxSpec.stream []) /\ (RxSpec.stream [] <> [] -> n_recv_data n' = true)).
  { intros n' (A1 & A2 & _). rewrite A1. split; [exact R|]. intros X. contradiction X; reflexivity. }
  assert (Lb : 0 <= n_rx_len n <= Z.of_nat (length (skipn 6 (n_rx_buf n)))) by (rewrite E1, app_length; lia).
  remember (skipn 6 raw) as d eqn:Hd. destruct B as [ch d N2|d S|hdr sec journal l P Hh S Hm Hst].
  - unfold CH_CONTROL_PORT, CH_MIDI_PORT. destruct (Z.eqb_spec ch 1) as [->|N1].
    + rewrite get_eq. destruct (control_total (skipn 6 (n_rx_buf n)) (n_rx_len n) (n_apple n) Len) as (x & ended & sends & a' & ->).
      destruct (sends_same sends (set_apple a' n)) as (n1 & o1 & Es & S1). unfold nthen, nbind, nmod. rewrite Es. destruct ended; eexists _, _; (split; [reflexivity|]); apply Empty; exact S1.
    + destruct (Z.eqb_spec ch 2); [contradiction|]. eexists _, _. split; [reflexivity|]. apply Empty, same_air_refl.
  - change (2 =? CH_CONTROL_PORT) with false. change (2 =? CH_MIDI_PORT) with true. cbv iota.
    rewrite (signature_eq _ _ Lb), L4, S. rewrite get_eq.
    destruct (session_total (skipn 6 (n_rx_buf n)) (n_rx_len n) (n_apple n) Len) as (x & ended & sends & a' & ->).
    destruct (sends_same sends (set_apple a' n)) as (n1 & o1 & Es & S1). unfold nthen, nbind, nmod. rewrite Es. eexists _, _. split; [reflexivity|]. apply Empty. exact S1.
  - change (2 =? CH_CONTROL_PORT) with false. change (2 =? CH_MIDI_PORT) with true. cbv iota.
    rewrite (signature_eq _ _ Lb), L4, S.
    rewrite E1, <- E3, (decodes hdr sec journal lft P Hh).
    assert (Hs : section_ok sec) by apply P. assert (H255 : list_length sec <= 255) by apply Hh. assert (SL := stream_length sec Hs).
    destruct (air_emit (RtpSpec.stream sec) n [] (conj W (conj R V)) (stream_bytes _ Hs)) as (n1 & Ee & A1 & X1); [cbn [length]; lia|].
    unfold nthen, nbind, nmod. rewrite Ee. eexists _, _. split; [reflexivity|]. rewrite Hst. destruct A1 as (_ & R1 & V1). auto.
Qed.

(** ** A poll *)
(** One poll in [asks]: before and after, a receive request is out or not. *)
Inductive asks1 (b : bool) (cbs : list callback) (y : bool) : list msg -> bool -> Prop :=
| a1_deaf : b = false -> asks1 b cbs y [] y
| a1_quiet : b = true -> first_receive cbs = None -> asks1 b cbs y [] true
| a1_error : b = true -> first_receive cbs = Some None -> asks1 b cbs y [] y
| a1_got ch raw l : b = true -> first_receive cbs = Some (Some (ch, raw)) -> brings ch (skipn 6 raw) l -> asks1 b cbs y l y.

Theorem tick_air n b cbs x y l b' : air n [] -> n_rx n = rx_of b -> Forall callback_ok cbs -> asks1 b cbs y l b' ->
  exists n' o, net_tick cbs x y n = NDone tt n' o /\ air n' (RxSpec.stream l) /\ n_rx n' = rx_of b'.
Proof.
  intros A Hx Hc H. assert (A0 := A). destruct A0 as (W & R & V).
  destruct (callbacks_total cbs n W Hc) as (n1 & o1 & E1 & W1 & R1 & V1 & X1); [rewrite Hx; destruct b; discriminate|].
  assert (A1 : air n1 []) by (split; [exact W1|]; rewrite R1, V1; auto).
  assert (K : exists n2 o2, nbind nget (fun s => match n_rx s with
     | RX_BUFFERED =>
         let buffer := skipn (Z.to_nat REUSE_PAYLOAD_HEADER_LEN) (n_rx_buf s) in
         nthen (nlog (NGot (n_rx_ch s) (firstn (Z.to_nat (n_rx_len s)) buffer)))
         (nthen (process_udp_data (n_rx_ch s) buffer (n_rx_len s)) (nmod (set_rx_state RX_IDLE)))
     | _ => nret tt end) n1 = NDone tt n2 o2 /\ air n2 (RxSpec.stream l) /\ (n_rx n2 = RX_IDLE /\ b' = y \/ n_rx n2 = RX_ARMED /\ b' = true)).
  { rewrite get_eq. rewrite Hx in X1. destruct H as [-> | -> F| -> F|ch raw l -> F B]; cbn [rx_of] in X1; try rewrite F in X1.
    - rewrite X1. eexists _, _. split; [reflexivity|]. split; [exact A1|auto].
    - rewrite X1. eexists _, _. split; [reflexivity|]. split; [exact A1|auto].
    - rewrite X1. eexists _, _. split; [reflexivity|]. split; [exact A1|auto].
    - assert (X2 := proj1 X1). rewrite X2. destruct (packet_air n1 ch raw l A1 X1 B) as (n2 & o2 & E2 & W2 & R2 & V2 & Q). exists n2, o2.
      split; [exact E2|]. split; [split; auto|auto]. }
  destruct K as (n2 & o2 & E2 & A2 & X2).
  destruct (buffered_same x n2) as (n3 & o3 & E3 & S3). destruct (feedback_same n3) as (n4 & o4 & E4 & S4).
  assert (S24 := same_air_trans _ _ _ S3 S4).
  assert (K : exists n5 o5, nbind nget (fun s => match n_rx s with
        | RX_IDLE => nthen (nlog (NArmed y)) (if y then nmod (set_rx_state RX_ARMED) else nret tt)
        | _ => nret tt end) n4 = NDone tt n5 o5 /\ n_ring n5 = n_ring n4 /\ n_recv_data n5 = n_recv_data n4 /\ n_rx n5 = rx_of b').
  { rewrite get_eq. destruct S24 as (_ & _ & S24). rewrite S24. destruct X2 as [[X2 ->]|[X2 ->]]; rewrite X2 in *.
    - destruct y; eexists _, _; (split; [reflexivity|]); repeat split. exact S24.
    - eexists _, _. split; [reflexivity|]. repeat split. exact S24. }
  destruct K as (n5 & o5 & E5 & R5 & V5 & X5).
  assert (E : net_tick cbs x y n = NDone tt n5 (o1 ++ o2 ++ o3 ++ o4 ++ o5)).
  { exact (then_done E1 (then_done E2 (then_done E3 (then_done E4 E5)))). }
  exists n5, (o1 ++ o2 ++ o3 ++ o4 ++ o5). split; [exact E|]. split; [|exact X5].
  split; [exact (reach_wf _ _ _ W (moves_step (NTick cbs x y) Hc _ _ _ W E))|].
  destruct S24 as (S1 & S2 & _). destruct A2 as (_ & R2 & V2). rewrite R5, V5, S1, S2. auto.
Qed.
