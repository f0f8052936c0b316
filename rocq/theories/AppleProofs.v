(** Proofs about session packets. *)
From Verif Require Import Base BaseLemmas RtpModel AppleModel RtpSpec NetSpec AppleSpec.

Lemma eqb_list_true a b : eqb_list a b = true <-> a = b.
Proof. unfold eqb_list. destruct (list_eq_dec Z.eq_dec a b); split; congruence. Qed.
Lemma eqb_list_2 x y u v : eqb_list [x; y] [u; v] = (x =? u) && (y =? v).
Proof.
  destruct (eqb_list [x; y] [u; v]) eqn:E.
  - apply eqb_list_true in E. injection E as -> ->. rewrite !Z.eqb_refl. reflexivity.
  - destruct (x =? u) eqn:E1; [|reflexivity]. destruct (y =? v) eqn:E2; [|reflexivity]. assert (x = u) by lia. assert (y = v) by lia. subst.
    assert (eqb_list [u; v] [u; v] = true) by (apply eqb_list_true; reflexivity). congruence.
Qed.
Lemma eqb_list_1 x u : eqb_list [x] [u] = (x =? u).
Proof.
  destruct (eqb_list [x] [u]) eqn:E.
  - apply eqb_list_true in E. injection E as ->. rewrite Z.eqb_refl. reflexivity.
  - destruct (x =? u) eqn:E1; [|reflexivity]. assert (x = u) by lia. subst. assert (eqb_list [u] [u] = true) by (apply eqb_list_true; reflexivity). congruence.
Qed.

Lemma be32_u32 a b c d : byte a -> byte b -> byte c -> byte d -> u8 (be32 a b c d / 2 ^ 24) = a /\ u8 (be32 a b c d / 2 ^ 16) = b /\ u8 (be32 a b c d / 2 ^ 8) = c /\ u8 (be32 a b c d) = d.
Proof.
  unfold byte, be32, u8. intros. change (2 ^ 24) with 16777216. change (2 ^ 16) with 65536. change (2 ^ 8) with 256.
  split; [|split; [|split]]; Z.div_mod_to_equations; lia.
Qed.
Lemma to_be32_be32 a b c d : byte a -> byte b -> byte c -> byte d -> to_be32 (be32 a b c d) = [a; b; c; d].
Proof. intros A B C D. destruct (be32_u32 a b c d A B C D) as (E1 & E2 & E3 & E4). unfold to_be32. rewrite E1, E2, E3, E4. reflexivity. Qed.
Lemma word32_be32 a b c d : word32 [a; b; c; d] = be32 a b c d.
Proof. unfold word32, be32. cbn [fold_left]. change (2 ^ 24) with 16777216. change (2 ^ 16) with 65536. change (2 ^ 8) with 256. lia. Qed.

Lemma ssrc_bytes : to_be32 MEGADRIVE_SSRC = own_ssrc.
Proof. reflexivity. Qed.
Lemma acceptance_eq token : pack_invitation_response token = acceptance token.
Proof. reflexivity. Qed.

(** A packet of at least [n] bytes, taken apart. *)
Ltac peel d n := do n (destruct d as [|? d]; [cbn in *; try lia; try discriminate|]).

Lemma invitation_result ch d left a : (32 <= length (d ++ left))%nat -> field 0 4 d = [0xFF; 0xFF] ++ IN ->
  process_invitation ch (d ++ left) (Z.of_nat (length d)) a =
  if 17 <=? Z.of_nat (length d) then ADone PKT_OK false [(ch, acceptance (field 8 4 d))] a else ADone PKT_EXCH_TOO_SMALL false [] a.
Proof.
  intros H E. unfold process_invitation, APPLE_MIDI_EXCH_PKT_MIN_LEN. destruct (17 <=? Z.of_nat (length d)) eqn:L.
  - replace (Z.of_nat (length d) <? 17) with false by lia. unfold copy_in, EXCHANGE_PACKET_LEN. replace (Z.of_nat (length (d ++ left)) <? 32) with false by lia.
    do 17 (destruct d as [|? d]; [cbn in L; lia|]). cbn in E. injection E as -> -> -> ->. change (Z.to_nat 32) with 32%nat. cbn [app firstn signed]. reflexivity.
  - replace (Z.of_nat (length d) <? 17) with true by lia. reflexivity.
Qed.

Lemma sync_result d left a : Forall byte d -> (36 <= length (d ++ left))%nat -> field 0 4 d = [0xFF; 0xFF] ++ CK ->
  process_timestamp_sync (d ++ left) (Z.of_nat (length d)) a =
  if 36 <=? Z.of_nat (length d) then
    if eqb_list (field 8 1 d) [0]
    then ADone PKT_OK false [(2, sync_answer d)] (mkApple (ap_seq a) (word32 (field 12 4 d)) ((word32 (field 16 4 d) + 10) mod 2 ^ 32))
    else ADone PKT_OK false [] a
  else ADone PKT_INVALID_TIMESYNC_LENGTH false [] a.
Proof.
  intros B H E. unfold process_timestamp_sync, TIMESYNC_PKT_LEN. destruct (36 <=? Z.of_nat (length d)) eqn:L.
  2: { replace (Z.of_nat (length d) <? 36) with true by lia. reflexivity. }
  replace (Z.of_nat (length d) <? 36) with false by lia. unfold copy_in. replace (Z.of_nat (length (d ++ left)) <? 36) with false by lia.
  do 36 (destruct d as [|? d]; [cbn in L; lia|]). cbn in E. injection E as -> -> -> ->. change (Z.to_nat 36) with 36%nat. cbn [app firstn].
  change (negb (signed _)) with false. cbv iota.
  change (field 8 1 (_ :: _)) with [z7]. rewrite eqb_list_1. destruct (z7 =? 0) eqn:Z7; [|reflexivity].
  change (field 12 4 (_ :: _)) with [z11; z12; z13; z14]. change (field 16 4 (_ :: _)) with [z15; z16; z17; z18].
  rewrite Forall_forall in B. assert (byte z11 /\ byte z12 /\ byte z13 /\ byte z14) as (B1 & B2 & B3 & B4) by (repeat split; apply B; cbn; tauto). clear B.
  unfold sync_answer. change (field 12 4 (_ :: _)) with [z11; z12; z13; z14]. change (field 16 4 (_ :: _)) with [z15; z16; z17; z18].
  change (field 9 3 (_ :: _)) with [z8; z9; z10]. change (field 12 8 (_ :: _)) with [z11; z12; z13; z14; z15; z16; z17; z18].
  change (field 28 8 (_ :: _)) with [z27; z28; z29; z30; z31; z32; z33; z34].
  rewrite !word32_be32. cbv zeta. rewrite to_be32_be32 by assumption. reflexivity.
Qed.

Lemma cmd_bytes d left : (4 <= length d)%nat -> exists c0 c1, field 2 2 d = [c0; c1] /\ zget (d ++ left) 2 = Some c0 /\ zget (d ++ left) 3 = Some c1.
Proof. intros H. do 4 (destruct d as [|? d]; [cbn in H; lia|]). exists z1, z2. repeat split. Qed.
Lemma field_04 d : (4 <= length d)%nat -> field 0 4 d = field 0 2 d ++ field 2 2 d.
Proof. intros H. do 4 (destruct d as [|? d]; [cbn in H; lia|]). reflexivity. Qed.
Lemma sign_eq d left : has_apple_midi_signature (d ++ left) (Z.of_nat (length d)) = Some (eqb_list (field 0 2 d) [0xFF; 0xFF]).
Proof.
  unfold has_apple_midi_signature. destruct d as [|x [|y d]]; [reflexivity| |].
  { change (Z.of_nat (length [x]) <? 2) with true. change (field 0 2 [x]) with [x]. unfold eqb_list. destruct (list_eq_dec _ _ _); [discriminate|reflexivity]. }
  replace (Z.of_nat (length (x :: y :: d)) <? 2) with false by (cbn [length]; lia). cbn [app]. change (field 0 2 (x :: y :: d)) with [x; y]. rewrite eqb_list_2. reflexivity.
Qed.

Lemma answers_long ch d left a : ch = 1 \/ ch = 2 -> Forall byte d -> (4 <= length d)%nat -> (36 <= length (d ++ left))%nat ->
  exists a', (if ch =? 1 then process_session_control_packet else process_session_midi_packet) (d ++ left) (Z.of_nat (length d)) a =
    ADone (verdict ch d) (ends_session ch d) (match reply ch d with Some p => [(ch, p)] | None => [] end) a'.
Proof.
  intros Hc B H4 H36. destruct (cmd_bytes d left H4) as (c0 & c1 & Ef & E0 & E1). pose proof (field_04 d H4) as Eh.
  unfold verdict, ends_session, reply. rewrite Eh, Ef.
  destruct (eqb_list (field 0 2 d) [0xFF; 0xFF]) eqn:Es.
  - apply eqb_list_true in Es. rewrite Es in *.
    assert (Eb : eqb_list ([255; 255] ++ [c0; c1]) ([255; 255] ++ BY) = eqb_list [c0; c1] BY).
    { destruct (eqb_list [c0; c1] BY) eqn:E; [apply eqb_list_true in E; rewrite E; reflexivity|].
      destruct (eqb_list ([255; 255] ++ [c0; c1]) ([255; 255] ++ BY)) eqn:E'; [|reflexivity]. apply eqb_list_true in E'. injection E' as -> ->. discriminate. }
    rewrite Eb. unfold IN, CK, RS, BY in *. rewrite !eqb_list_2. pose proof (sign_eq d left) as Sg. rewrite Es in Sg. change (eqb_list [255; 255] [255; 255]) with true in Sg.
    destruct Hc as [-> | ->].
    + change (1 =? 1) with true. change (1 =? 2) with false. cbn [andb]. unfold process_session_control_packet. rewrite Sg, E0, E1.
      destruct ((c0 =? 73) && (c1 =? 78)) eqn:I1.
      * assert (c0 = 73) by lia. assert (c1 = 78) by lia. subst. rewrite invitation_result; [|lia|rewrite Eh, Ef; reflexivity]. cbn [andb].
        destruct (17 <=? _); eexists; reflexivity.
      * cbn [andb]. destruct ((c0 =? 82) && (c1 =? 83)) eqn:I2.
        -- replace ((c0 =? 66) && (c1 =? 89)) with false by lia. eexists. reflexivity.
        -- destruct ((c0 =? 66) && (c1 =? 89)); eexists; reflexivity.
    + change (2 =? 1) with false. change (2 =? 2) with true. cbn [andb]. unfold process_session_midi_packet. rewrite Sg, E0, E1.
      destruct ((c0 =? 73) && (c1 =? 78)) eqn:I1.
      * assert (c0 = 73) by lia. assert (c1 = 78) by lia. subst. rewrite invitation_result; [|lia|rewrite Eh, Ef; reflexivity]. cbn [andb].
        destruct (17 <=? _); eexists; reflexivity.
      * cbn [andb]. destruct ((c0 =? 67) && (c1 =? 75)) eqn:I2; [|eexists; reflexivity].
        assert (c0 = 67) by lia. assert (c1 = 75) by lia. subst. rewrite sync_result; [|assumption|lia|rewrite Eh, Ef; reflexivity]. cbn [andb].
        destruct (36 <=? _); [|eexists; reflexivity]. cbn [andb]. destruct (eqb_list (field 8 1 d) [0]); eexists; reflexivity.
  - replace (eqb_list (field 0 2 d ++ [c0; c1]) ([0xFF; 0xFF] ++ BY)) with false.
    2: { symmetry. apply not_true_is_false. intros E. apply eqb_list_true in E. do 2 (destruct d as [|? d]; [cbn in H4; lia|]).
         cbn in E. injection E as -> -> _ _. discriminate. }
    rewrite andb_false_r. destruct Hc as [-> | ->]; [change (1 =? 1) with true|change (2 =? 1) with false]; eexists; cbv iota; unfold process_session_control_packet, process_session_midi_packet; rewrite sign_eq, Es; reflexivity.
Qed.

Lemma reply_long ch d p : reply ch d = Some p -> (17 <= length d)%nat.
Proof.
  unfold reply. destruct (eqb_list _ _); [|discriminate]. destruct (eqb_list (field 2 2 d) IN && _) eqn:E; [intros _; lia|].
  match goal with |- (if ?b then _ else _) = _ -> _ => destruct b eqn:E2 end; [intros _; lia|discriminate].
Qed.

(** What is sent back depends on the packet alone. *)
Lemma answers ch d left a : ch = 1 \/ ch = 2 -> Forall byte d -> (36 <= length (d ++ left))%nat ->
  exists code ended a', (if ch =? 1 then process_session_control_packet else process_session_midi_packet) (d ++ left) (Z.of_nat (length d)) a =
    ADone code ended (match reply ch d with Some p => [(ch, p)] | None => [] end) a'.
Proof.
  intros Hc B H36. destruct (le_lt_dec 4 (length d)) as [H|H].
  - destruct (answers_long ch d left a Hc B H H36) as [a' E]. eexists _, _, a'. exact E.
  - destruct (reply ch d) as [p|] eqn:Er; [apply reply_long in Er; lia|].
    assert (exists z0 z1, zget (d ++ left) 2 = Some z0 /\ zget (d ++ left) 3 = Some z1) as (z0 & z1 & E0 & E1).
    { remember (d ++ left) as l. do 4 (destruct l as [|? l]; [cbn in H36; lia|]). eexists _, _. split; reflexivity. }
    destruct Hc as [-> | ->]; [change (1 =? 1) with true|change (2 =? 1) with false]; cbv iota; unfold process_session_control_packet, process_session_midi_packet; rewrite sign_eq, E0, E1;
      (destruct (eqb_list _ _); [|eexists _, _, _; reflexivity]).
    + destruct (_ && _); [unfold process_invitation, APPLE_MIDI_EXCH_PKT_MIN_LEN; replace (Z.of_nat (length d) <? 17) with true by lia; eexists _, _, _; reflexivity|].
      destruct (_ && _); [eexists _, _, _; reflexivity|]. destruct (_ && _); eexists _, _, _; reflexivity.
    + destruct (_ && _); [unfold process_invitation, APPLE_MIDI_EXCH_PKT_MIN_LEN; replace (Z.of_nat (length d) <? 17) with true by lia; eexists _, _, _; reflexivity|].
      destruct (_ && _); [unfold process_timestamp_sync, TIMESYNC_PKT_LEN; replace (Z.of_nat (length d) <? 36) with true by lia; eexists _, _, _; reflexivity|].
      eexists _, _, _; reflexivity.
Qed.
