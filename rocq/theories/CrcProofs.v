From Verif Require Import Base BaseLemmas CrcModel CrcSpec.

Lemma mod16_testbit c i : Z.testbit (c mod 65536) i = (i <? 16) && Z.testbit c i.
Proof.
  change 65536 with (2 ^ 16).
  destruct (Z.ltb_spec i 16).
  - destruct (Z_lt_ge_dec i 0); [rewrite !Z.testbit_neg_r by lia; reflexivity|].
    rewrite Z.mod_pow2_bits_low by lia. reflexivity.
  - rewrite Z.mod_pow2_bits_high by lia. reflexivity.
Qed.

Lemma mod16_lxor a b : Z.lxor a b mod 65536 = Z.lxor (a mod 65536) (b mod 65536).
Proof.
  apply Z.bits_inj'; intros i Hi. rewrite Z.lxor_spec, !mod16_testbit, Z.lxor_spec.
  destruct (i <? 16); reflexivity.
Qed.

Lemma double_lxor a b : 2 * Z.lxor a b = Z.lxor (2 * a) (2 * b).
Proof.
  rewrite <- !(Z.mul_comm _ 2). rewrite <- !(Z.shiftl_mul_pow2 _ 1) by lia.
  apply Z.shiftl_lxor.
Qed.

Lemma lxor_lt16 a b : 0 <= a < 65536 -> 0 <= b < 65536 -> 0 <= Z.lxor a b < 65536.
Proof.
  intros Ha Hb. rewrite <- (Z.mod_small a 65536), <- (Z.mod_small b 65536) by lia.
  rewrite <- mod16_lxor. apply Z.mod_pos_bound; lia.
Qed.

Lemma crc_bit_range c b : 0 <= crc_bit c b < 65536.
Proof.
  unfold crc_bit. assert (0 <= (2 * c) mod 65536 < 65536) by (apply Z.mod_pos_bound; lia).
  destruct (xorb (Z.testbit c 15) b); [apply lxor_lt16; lia|assumption].
Qed.

Lemma fold_crc_range l : forall c, 0 <= c < 65536 -> 0 <= fold_left crc_bit l c < 65536.
Proof. induction l; intros c H; cbn; [exact H|]. apply IHl, crc_bit_range. Qed.

Lemma crc_bit_linear c1 c2 b1 b2 :
  crc_bit (Z.lxor c1 c2) (xorb b1 b2) = Z.lxor (crc_bit c1 b1) (crc_bit c2 b2).
Proof.
  unfold crc_bit. rewrite double_lxor, mod16_lxor, Z.lxor_spec.
  set (p := (2 * c1) mod 65536). set (q := (2 * c2) mod 65536).
  destruct (Z.testbit c1 15), (Z.testbit c2 15), b1, b2; cbn [xorb];
    apply Z.bits_inj'; intros i Hi; rewrite ?Z.lxor_spec;
    destruct (Z.testbit p i), (Z.testbit q i), (Z.testbit 4129 i); reflexivity.
Qed.

Lemma fold_linear l1 : forall l2 c1 c2, length l1 = length l2 ->
  fold_left crc_bit (xor_bits l1 l2) (Z.lxor c1 c2)
  = Z.lxor (fold_left crc_bit l1 c1) (fold_left crc_bit l2 c2).
Proof.
  induction l1 as [|b1 l1 IH]; intros [|b2 l2] c1 c2 H; cbn in *; try discriminate; auto.
  rewrite crc_bit_linear. apply IH. lia.
Qed.

(** ** Byte step = 8 bit steps *)
Definition zeros8 := repeat false 8.

(** The byte step is linear too, so it is enough to compare on the high and the
    low byte separately. *)
Lemma mod8_testbit c i : Z.testbit (c mod 256) i = (i <? 8) && Z.testbit c i.
Proof.
  change 256 with (2 ^ 8).
  destruct (Z.ltb_spec i 8).
  - destruct (Z_lt_ge_dec i 0); [rewrite !Z.testbit_neg_r by lia; reflexivity|].
    rewrite Z.mod_pow2_bits_low by lia. reflexivity.
  - rewrite Z.mod_pow2_bits_high by lia. reflexivity.
Qed.

Lemma u8_lxor a b : u8 (Z.lxor a b) = Z.lxor (u8 a) (u8 b).
Proof.
  unfold u8. apply Z.bits_inj'; intros i Hi. rewrite Z.lxor_spec, !mod8_testbit, Z.lxor_spec.
  destruct (i <? 8); reflexivity.
Qed.
Lemma u16_lxor a b : u16 (Z.lxor a b) = Z.lxor (u16 a) (u16 b).
Proof. apply mod16_lxor. Qed.

Lemma lxor_swap a b c d : Z.lxor (Z.lxor a b) (Z.lxor c d) = Z.lxor (Z.lxor a c) (Z.lxor b d).
Proof.
  rewrite !Z.lxor_assoc. f_equal. rewrite <- !Z.lxor_assoc. f_equal. apply Z.lxor_comm.
Qed.

Lemma crc_byte_lin c1 c2 b1 b2 :
  crc_byte (Z.lxor c1 c2) (Z.lxor b1 b2) = Z.lxor (crc_byte c1 b1) (crc_byte c2 b2).
Proof.
  unfold crc_byte; cbv zeta.
  rewrite (Z.shiftr_lxor c1 c2), (lxor_swap (Z.shiftr c1 8)),
    (u8_lxor (Z.lxor (Z.shiftr c1 8) b1)).
  generalize (u8 (Z.lxor (Z.shiftr c1 8) b1)), (u8 (Z.lxor (Z.shiftr c2 8) b2)). intros p q.
  rewrite (Z.shiftr_lxor p q), (lxor_swap p q), (u8_lxor (Z.lxor p (Z.shiftr p 4))).
  generalize (u8 (Z.lxor p (Z.shiftr p 4))), (u8 (Z.lxor q (Z.shiftr q 4))). clear p q. intros p q.
  rewrite !Z.shiftl_lxor, !u16_lxor.
  rewrite (lxor_swap (u16 (Z.shiftl c1 8))). rewrite (lxor_swap (Z.lxor (u16 (Z.shiftl c1 8)) _)).
  rewrite (lxor_swap _ _ (u16 p)). reflexivity.
Qed.

Lemma crc_byte_lin0 a b : crc_byte (Z.lxor a b) 0 = Z.lxor (crc_byte a 0) (crc_byte b 0).
Proof. exact (crc_byte_lin a b 0 0). Qed.

Lemma split_hi_lo v : 0 <= v < 65536 -> v = Z.lxor (v / 256 * 256) (v mod 256).
Proof.
  intros Hv. rewrite <- Z.add_nocarry_lxor.
  - rewrite Z.mul_comm. apply Z.div_mod. lia.
  - apply Z.bits_inj'; intros i Hi. rewrite Z.land_spec, mod8_testbit, Z.bits_0.
    destruct (Z.ltb_spec i 8); cbn; [|apply andb_false_r].
    rewrite Z.mul_comm. change 256 with (2 ^ 8) at 1. rewrite Z.mul_comm.
    rewrite Z.mul_pow2_bits_low by lia. reflexivity.
Qed.

Lemma crc_zero_sweep :
  allb 0 256 (fun v => (crc_byte v 0 =? fold_left crc_bit zeros8 v)
                       && (crc_byte (v * 256) 0 =? fold_left crc_bit zeros8 (v * 256))) = true.
Proof. vm_compute. reflexivity. Qed.

Lemma crc_zero v : 0 <= v < 65536 -> crc_byte v 0 = fold_left crc_bit zeros8 v.
Proof.
  intros Hv. rewrite (split_hi_lo v Hv).
  rewrite crc_byte_lin0.
  change zeros8 with (xor_bits zeros8 zeros8). rewrite fold_linear by reflexivity.
  change (xor_bits zeros8 zeros8) with zeros8.
  assert (D1 : 0 <= v / 256 < 0 + 256) by lia. assert (D2 : 0 <= v mod 256 < 0 + 256) by lia.
  assert (H1 := allb_spec _ _ _ crc_zero_sweep _ D1). cbv beta in H1.
  assert (H2 := allb_spec _ _ _ crc_zero_sweep _ D2). cbv beta in H2.
  apply andb_true_iff in H1. apply andb_true_iff in H2. rewrite !Z.eqb_eq in *.
  destruct H1 as [_ ->], H2 as [-> _]. reflexivity.
Qed.

Lemma byte_inject_sweep :
  allb 0 256 (fun b => fold_left crc_bit (byte_bits b) 0
                       =? fold_left crc_bit zeros8 (b * 256)) = true.
Proof. vm_compute. reflexivity. Qed.

Lemma xor_bits_zeros l : xor_bits (repeat false (length l)) l = l.
Proof. induction l as [|b l IH]; cbn; [reflexivity|]. rewrite IH. destruct b; reflexivity. Qed.

Lemma crc_byte_shift c b :
  0 <= c < 65536 -> 0 <= b < 256 -> crc_byte c b = crc_byte (Z.lxor c (b * 256)) 0.
Proof.
  intros Hc Hb. unfold crc_byte.
  assert (E1 : Z.shiftr (Z.lxor c (b * 256)) 8 = Z.lxor (Z.shiftr c 8) b).
  { rewrite Z.shiftr_lxor. f_equal. rewrite Z.shiftr_div_pow2 by lia.
    change (2 ^ 8) with 256. apply Z.div_mul; lia. }
  rewrite E1, Z.lxor_0_r.
  set (x := u8 (Z.lxor (u8 (Z.lxor (Z.shiftr c 8) b)) _)).
  unfold u16 at 1. unfold u16 at 3. rewrite !mod16_lxor. do 3 f_equal.
  rewrite Z.shiftl_lxor, mod16_lxor.
  rewrite (Z.shiftl_mul_pow2 (b * 256)) by lia. change (2 ^ 8) with 256.
  replace (b * 256 * 256) with (b * 65536) by lia. rewrite Z.mod_mul by lia.
  rewrite Z.lxor_0_r. reflexivity.
Qed.

Lemma crc_byte_spec c b :
  0 <= c < 65536 -> 0 <= b < 256 -> crc_byte c b = fold_left crc_bit (byte_bits b) c.
Proof.
  intros Hc Hb. rewrite crc_byte_shift by assumption.
  assert (Hx : 0 <= Z.lxor c (b * 256) < 65536) by (apply lxor_lt16; lia).
  rewrite (crc_zero _ Hx).
  assert (H := allb_spec _ _ _ byte_inject_sweep b ltac:(lia)). cbv beta in H.
  apply Z.eqb_eq in H.
  assert (E1 : fold_left crc_bit zeros8 (Z.lxor c (b * 256))
          = Z.lxor (fold_left crc_bit zeros8 c) (fold_left crc_bit zeros8 (b * 256))).
  { rewrite <- fold_linear by reflexivity. reflexivity. }
  assert (E2 : fold_left crc_bit (byte_bits b) c
          = Z.lxor (fold_left crc_bit zeros8 c) (fold_left crc_bit (byte_bits b) 0)).
  { rewrite <- fold_linear by reflexivity. rewrite Z.lxor_0_r. f_equal.
    symmetry. apply (xor_bits_zeros (byte_bits b)). }
  rewrite E1, E2, H. reflexivity.
Qed.

Definition bytes (l : list Z) : Prop := Forall (fun b => 0 <= b < 256) l.

Lemma crc_fold_spec data : forall c, bytes data -> 0 <= c < 65536 ->
  fold_left crc_byte data c = fold_left crc_bit (msg_bits data) c.
Proof.
  induction data as [|b t IH]; intros c Hb Hc; [reflexivity|].
  inversion Hb as [|? ? Hb1 Hb2]; subst. cbn [fold_left msg_bits flat_map].
  rewrite fold_left_app. rewrite crc_byte_spec by assumption.
  apply IH; [assumption|]. apply fold_crc_range; assumption.
Qed.

Lemma crc_is_spec data : bytes data -> crc_calc_crc16 data = crc_spec data.
Proof. intros H. apply crc_fold_spec; [assumption|lia]. Qed.

Lemma crc_range data : bytes data -> 0 <= crc_calc_crc16 data < 65536.
Proof. intros H. rewrite crc_is_spec by assumption. apply fold_crc_range; lia. Qed.

(** ** Linearity at the byte level *)
Lemma byte_bits_lxor a b : byte_bits (Z.lxor a b) = xor_bits (byte_bits a) (byte_bits b).
Proof. unfold byte_bits. cbn [map xor_bits]. rewrite !Z.lxor_spec. reflexivity. Qed.

Lemma xor_bits_app a1 a2 b1 b2 :
  length a1 = length b1 -> xor_bits (a1 ++ a2) (b1 ++ b2) = xor_bits a1 b1 ++ xor_bits a2 b2.
Proof.
  revert b1; induction a1 as [|x a1 IH]; intros [|y b1] H; cbn in *; try discriminate; auto.
  f_equal; apply IH; lia.
Qed.

Lemma msg_bits_xor a : forall b, length a = length b ->
  msg_bits (xor_bytes a b) = xor_bits (msg_bits a) (msg_bits b).
Proof.
  induction a as [|x a IH]; intros [|y b] H; cbn [xor_bytes msg_bits flat_map length] in *;
    try discriminate; auto.
  rewrite xor_bits_app by reflexivity. rewrite <- byte_bits_lxor. f_equal. apply IH; lia.
Qed.

Lemma msg_bits_length a : length (msg_bits a) = (8 * length a)%nat.
Proof. induction a; cbn [msg_bits flat_map]; [reflexivity|]. rewrite app_length. fold (msg_bits a0).
  rewrite IHa. cbn. lia. Qed.

Lemma lxor_lt8 a b : 0 <= a < 256 -> 0 <= b < 256 -> 0 <= Z.lxor a b < 256.
Proof.
  intros Ha Hb.
  assert (Hn : 0 <= Z.lxor a b) by (apply Z.lxor_nonneg; lia).
  split; [assumption|]. destruct (Z.eq_dec (Z.lxor a b) 0) as [->|Hne]; [lia|].
  change 256 with (2 ^ 8). apply Z.log2_lt_pow2; [lia|].
  assert (H := Z.log2_lxor a b ltac:(lia) ltac:(lia)).
  assert (Z.log2 a < 8).
  { destruct (Z.eq_dec a 0) as [->|]; [cbn; lia|]. apply Z.log2_lt_pow2; cbn; lia. }
  assert (Z.log2 b < 8).
  { destruct (Z.eq_dec b 0) as [->|]; [cbn; lia|]. apply Z.log2_lt_pow2; cbn; lia. }
  lia.
Qed.

Lemma bytes_xor a : forall b, bytes a -> bytes b -> bytes (xor_bytes a b).
Proof.
  induction a as [|x a IH]; intros [|y b] Ha Hb; cbn; try constructor.
  - inversion Ha; inversion Hb; subst. apply lxor_lt8; assumption.
  - inversion Ha; inversion Hb; subst. apply IH; assumption.
Qed.

Lemma crc_difference a b :
  bytes a -> bytes b -> length a = length b ->
  Z.lxor (crc_calc_crc16 a) (crc_calc_crc16 b) = fold_left crc_byte (xor_bytes a b) 0.
Proof.
  intros Ha Hb Hl. rewrite !crc_is_spec by assumption. unfold crc_spec.
  rewrite <- fold_linear by (rewrite !msg_bits_length; lia).
  rewrite Z.lxor_nilpotent. rewrite crc_fold_spec; [|apply bytes_xor; assumption|lia].
  rewrite msg_bits_xor by assumption. reflexivity.
Qed.

(** ** Burst errors *)
Lemma zero_step c : 0 < c < 65536 -> crc_bit c false <> 0.
Proof.
  intros Hc. unfold crc_bit. rewrite xorb_false_r.
  destruct (Z.testbit c 15) eqn:E.
  - intros H. assert (H0 : Z.testbit (Z.lxor ((2 * c) mod 65536) 4129) 0 = true).
    { rewrite Z.lxor_spec, mod16_testbit. rewrite Z.testbit_even_0. reflexivity. }
    rewrite H in H0. discriminate.
  - assert (c < 32768).
    { destruct (Z_lt_ge_dec c 32768); [assumption|exfalso].
      assert (HB : Z.testbit c 15 = true).
      { apply Z.testbit_true; [lia|]. change (2 ^ 15) with 32768.
        assert (c / 32768 = 1) by lia.
        rewrite H. reflexivity. }
      congruence. }
    rewrite Z.mod_small by lia. lia.
Qed.

Lemma zeros_keep n : forall c, 0 < c < 65536 -> fold_left crc_bit (repeat false n) c <> 0.
Proof.
  induction n as [|n IH]; intros c Hc; cbn; [lia|].
  apply IH. assert (H := zero_step c Hc).
  assert (Hr := crc_bit_range c false). lia.
Qed.

Lemma zeros_zero n : fold_left crc_bit (repeat false n) 0 = 0.
Proof. induction n; cbn; auto. Qed.

Lemma byte_bits_inj_ex l : length l = 8%nat -> exists v, 0 <= v < 256 /\ byte_bits v = l.
Proof.
  intros Hl. do 8 (destruct l as [|? l]; [discriminate|]). destruct l; [|discriminate].
  exists (b2z b * 128 + b2z b0 * 64 + b2z b1 * 32 + b2z b2 * 16 + b2z b3 * 8 + b2z b4 * 4
          + b2z b5 * 2 + b2z b6).
  split.
  - destruct b, b0, b1, b2, b3, b4, b5, b6; cbn; lia.
  - destruct b, b0, b1, b2, b3, b4, b5, b6; reflexivity.
Qed.

Lemma crc_byte_range c b : 0 <= crc_byte c b < 65536.
Proof. unfold crc_byte. apply Z.mod_pos_bound. lia. Qed.

(** Feeding two bytes into the zero state is sixteen zero steps from the
    16-bit value they form, so it cannot give zero unless both are zero. *)
Lemma two_byte_zero x y :
  0 <= x < 256 -> 0 <= y < 256 -> crc_byte (crc_byte 0 x) y = 0 -> x = 0 /\ y = 0.
Proof.
  intros Hx Hy H.
  assert (E1 : crc_byte 0 x = crc_byte (x * 256) 0).
  { rewrite crc_byte_shift by lia. reflexivity. }
  assert (Hb0 : bytes [0; 0]) by (repeat constructor; lia).
  assert (E2 : crc_byte (crc_byte 0 x) y = fold_left crc_bit (repeat false 16) (x * 256 + y)).
  { rewrite E1. replace (x * 256 + y) with (Z.lxor (x * 256) y).
    - change (repeat false 16) with (msg_bits [0; 0]).
      rewrite <- crc_fold_spec; [|assumption|apply lxor_lt16; lia]. cbn [fold_left].
      rewrite (crc_byte_lin0 (x * 256) y), (crc_byte_lin0 (crc_byte (x * 256) 0)).
      assert (E3 : crc_byte (crc_byte y 0) 0 = crc_byte 0 y).
      { assert (HS : allb 0 256 (fun y => crc_byte (crc_byte y 0) 0 =? crc_byte 0 y) = true)
          by (vm_compute; reflexivity).
        apply Z.eqb_eq. exact (allb_spec _ _ _ HS y ltac:(lia)). }
      rewrite E3. rewrite <- crc_byte_lin. rewrite Z.lxor_0_r, Z.lxor_0_l. reflexivity.
    - symmetry. rewrite (split_hi_lo (x * 256 + y)) by lia. f_equal; lia. }
  rewrite E2 in H.
  destruct (Z.eq_dec (x * 256 + y) 0) as [E0|E0]; [lia|].
  exfalso. revert H. apply zeros_keep. lia.
Qed.

Lemma short_nonzero l : (length l <= 16)%nat -> In true l -> fold_left crc_bit l 0 <> 0.
Proof.
  intros Hl Hin.
  set (l' := repeat false (16 - length l) ++ l).
  assert (Hl' : length l' = 16%nat) by (unfold l'; rewrite app_length, repeat_length; lia).
  assert (E : fold_left crc_bit l 0 = fold_left crc_bit l' 0)
    by (unfold l'; rewrite fold_left_app, zeros_zero; reflexivity).
  assert (Hin' : In true l') by (apply in_or_app; right; assumption).
  rewrite E. clear E. clearbody l'. clear Hin Hl l.
  rewrite <- (firstn_skipn 8 l') in Hin' |- *.
  destruct (byte_bits_inj_ex (firstn 8 l')) as (x & Hx & Ex); [rewrite firstn_length; lia|].
  destruct (byte_bits_inj_ex (skipn 8 l')) as (y & Hy & Ey); [rewrite skipn_length; lia|].
  rewrite <- Ex, <- Ey in *. intros H.
  rewrite fold_left_app in H. rewrite <- (crc_byte_spec 0 x) in H by lia.
  rewrite <- (crc_byte_spec _ y (crc_byte_range 0 x) Hy) in H.
  apply two_byte_zero in H; try assumption. destruct H as [-> ->].
  apply in_app_or in Hin'. cbn in Hin'. intuition congruence.
Qed.

Lemma burst_nonzero e : burst16 e -> fold_left crc_bit e 0 <> 0.
Proof.
  intros (a & w & b & -> & Hw).
  rewrite fold_left_app. rewrite zeros_zero.
  change (true :: w ++ repeat false b) with ((true :: w) ++ repeat false b).
  rewrite fold_left_app. apply zeros_keep.
  assert (H := short_nonzero (true :: w) ltac:(cbn; lia) ltac:(left; reflexivity)).
  assert (Hr := fold_crc_range (true :: w) 0 ltac:(lia)). lia.
Qed.

(** Appending the big-endian checksum gives remainder zero. *)
Lemma residue_sweep :
  allb 0 256 (fun v => (crc_byte (crc_byte (v * 256) v) 0 =? 0)
                       && (crc_byte (crc_byte v 0) v =? 0)) = true.
Proof. vm_compute. reflexivity. Qed.

Lemma residue c : 0 <= c < 65536 -> crc_byte (crc_byte c (c / 256)) (c mod 256) = 0.
Proof.
  intros Hc.
  assert (D1 : 0 <= c / 256 < 0 + 256) by lia. assert (D2 : 0 <= c mod 256 < 0 + 256) by lia.
  assert (H1 := allb_spec _ _ _ residue_sweep _ D1). cbv beta in H1.
  assert (H2 := allb_spec _ _ _ residue_sweep _ D2). cbv beta in H2.
  assert (E := split_hi_lo c Hc).
  set (h := c / 256) in *. set (l := c mod 256) in *. clearbody h l.
  apply andb_true_iff in H1. apply andb_true_iff in H2. rewrite !Z.eqb_eq in *.
  destruct H1 as [H1 _], H2 as [_ H2]. rewrite E.
  assert (A := crc_byte_lin (h * 256) l h 0). rewrite Z.lxor_0_r in A. rewrite A.
  assert (B := crc_byte_lin (crc_byte (h * 256) h) (crc_byte l 0) 0 l).
  rewrite Z.lxor_0_l in B. rewrite B, H1, H2. reflexivity.
Qed.

Lemma crc_byte_linear c1 c2 b1 b2 :
  0 <= c1 < 65536 -> 0 <= c2 < 65536 -> 0 <= b1 < 256 -> 0 <= b2 < 256 ->
  crc_byte (Z.lxor c1 c2) (Z.lxor b1 b2) = Z.lxor (crc_byte c1 b1) (crc_byte c2 b2).
Proof. intros. apply crc_byte_lin. Qed.

Lemma two_byte_inj c h1 l1 h2 l2 :
  0 <= c < 65536 -> 0 <= h1 < 256 -> 0 <= l1 < 256 -> 0 <= h2 < 256 -> 0 <= l2 < 256 ->
  crc_byte (crc_byte c h1) l1 = crc_byte (crc_byte c h2) l2 -> h1 = h2 /\ l1 = l2.
Proof.
  intros Hc H1 H2 H3 H4 E.
  assert (L1 := crc_byte_linear c c h1 h2 Hc Hc H1 H3).
  assert (L2 := crc_byte_linear _ _ l1 l2 (crc_byte_range c h1) (crc_byte_range c h2) H2 H4).
  rewrite <- L1, E, !Z.lxor_nilpotent in L2.
  apply two_byte_zero in L2; [|apply lxor_lt8; assumption|apply lxor_lt8; assumption].
  destruct L2 as [A B]. apply Z.lxor_eq in A. apply Z.lxor_eq in B. auto.
Qed.

Lemma crc_check_iff data hi lo :
  bytes data -> 0 <= hi < 256 -> 0 <= lo < 256 ->
  (crc_calc_crc16 (data ++ [hi; lo]) = 0 <-> hi * 256 + lo = crc_calc_crc16 data).
Proof.
  intros Hd Hhi Hlo. assert (Hr := crc_range data Hd).
  assert (E : crc_calc_crc16 (data ++ [hi; lo]) = crc_byte (crc_byte (crc_calc_crc16 data) hi) lo)
    by (unfold crc_calc_crc16; rewrite fold_left_app; reflexivity).
  rewrite E. clear E.
  generalize dependent (crc_calc_crc16 data). intros c Hr.
  assert (H0 := residue c Hr).
  assert (D1 : 0 <= c / 256 < 256) by lia. assert (D2 : 0 <= c mod 256 < 256) by lia.
  split.
  - intros H. rewrite <- H in H0.
    destruct (two_byte_inj c _ _ hi lo Hr D1 D2 Hhi Hlo H0) as [A B]. lia.
  - intros E. assert (Eh : hi = c / 256) by lia. assert (El : lo = c mod 256) by lia.
    rewrite Eh, El. exact H0.
Qed.
