From Verif Require Import Base BaseLemmas IpUtilModel IpUtilSpec.

Definition decimalb (s : list Z) (n : Z) : bool :=
  negb (Nat.eqb (length s) 0) && forallb (fun c => (48 <=? c) && (c <=? 57)) s
  && (text_value s =? n) && (negb (hd 0 s =? 48) || Nat.eqb (length s) 1).

Lemma decimalb_ok s n : decimalb s n = true <-> decimal s n.
Proof.
  unfold decimalb, decimal, digit. rewrite !andb_true_iff, orb_true_iff, !negb_true_iff.
  rewrite forallb_forall, Forall_forall.
  assert (H : (length s =? 0)%nat = false <-> s <> []) by (destruct s; cbn; split; congruence).
  rewrite H, Z.eqb_eq, Z.eqb_neq, Nat.eqb_eq.
  split.
  - intros (((H1 & H2) & H3) & H4). repeat split; auto.
    + specialize (H2 x H0); lia.
    + specialize (H2 x H0); lia.
    + intuition.
  - intros (H1 & H2 & H3 & H4). repeat split; auto.
    + intros x Hx; specialize (H2 x Hx); lia.
    + destruct (Z.eq_dec (hd 0 s) 48); [right; auto|left; auto].
Qed.

Definition bad_byte (n : Z) : bool := ((100 <=? n) && (n <=? 109)) || ((200 <=? n) && (n <=? 209)).

Lemma uint8_sweep :
  allb 0 256 (fun n => Bool.eqb (decimalb (uint8_to_str n) n) (negb (bad_byte n))) = true.
Proof. vm_compute. reflexivity. Qed.

Lemma uint8_decimal_iff n :
  0 <= n < 256 -> (decimal (uint8_to_str n) n <-> bad_byte n = false).
Proof.
  intros Hn. assert (H := allb_spec _ _ _ uint8_sweep n ltac:(lia)). cbv beta in H.
  rewrite <- decimalb_ok. destruct (decimalb (uint8_to_str n) n), (bad_byte n); cbn in H;
    split; congruence.
Qed.

Lemma uint8_len_sweep :
  allb 0 256 (fun n => Nat.leb 1 (length (uint8_to_str n)) && Nat.leb (length (uint8_to_str n)) 3) = true.
Proof. vm_compute. reflexivity. Qed.

Lemma uint8_len n : 0 <= n < 256 -> (1 <= length (uint8_to_str n) <= 3)%nat.
Proof.
  intros Hn. assert (H := allb_spec _ _ _ uint8_len_sweep n ltac:(lia)). cbv beta in H.
  apply andb_true_iff in H. rewrite !Nat.leb_le in H. lia.
Qed.

Definition ip_byte (ip i : Z) : Z := ip / 256 ^ (3 - i) mod 256.

Lemma ip_str_shape ip :
  0 <= ip < 2 ^ 32 ->
  uint32_to_ip_str ip
  = uint8_to_str (ip_byte ip 0) ++ [46] ++ uint8_to_str (ip_byte ip 1) ++ [46]
    ++ uint8_to_str (ip_byte ip 2) ++ [46] ++ uint8_to_str (ip_byte ip 3).
Proof.
  intros H. unfold uint32_to_ip_str, ip_byte.
  change (256 ^ (3 - 0)) with 16777216. change (256 ^ (3 - 1)) with 65536.
  change (256 ^ (3 - 2)) with 256. change (256 ^ (3 - 3)) with 1.
  rewrite Z.div_1_r. reflexivity.
Qed.

Lemma ip_byte_range ip i : 0 <= ip_byte ip i < 256.
Proof. unfold ip_byte. apply Z.mod_pos_bound. lia. Qed.

Lemma ip_str_len ip :
  0 <= ip < 2 ^ 32 -> (7 <= length (uint32_to_ip_str ip) <= 15)%nat.
Proof.
  intros H. rewrite ip_str_shape by assumption. rewrite !app_length. cbn [length].
  assert (H0 := uint8_len _ (ip_byte_range ip 0)). assert (H1 := uint8_len _ (ip_byte_range ip 1)).
  assert (H2 := uint8_len _ (ip_byte_range ip 2)). assert (H3 := uint8_len _ (ip_byte_range ip 3)).
  lia.
Qed.

Lemma ip_105_wrong :
  exists ip, 0 <= ip < 2 ^ 32 /\
    uint32_to_ip_str ip = [49; 57; 50; 46; 49; 54; 56; 46; 49; 46; 49; 53] /\
    ip_byte ip 3 = 105 /\ ~ decimal (uint8_to_str (ip_byte ip 3)) (ip_byte ip 3).
Proof.
  exists 3232235881. split; [lia|]. split; [reflexivity|]. split; [reflexivity|].
  change (ip_byte 3232235881 3) with 105. rewrite uint8_decimal_iff by lia. discriminate.
Qed.
