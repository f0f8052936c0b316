From Verif Require Import Base BaseLemmas SynthModel SynthSpec CrcModel CrcSpec CrcProofs SramModel SramSpec.

(** ** Bits *)
Lemma to_bits_length n v : length (to_bits n v) = n.
Proof. induction n; cbn; auto. Qed.

Lemma of_bits_acc l : forall acc, of_bits acc l = acc * 2 ^ Z.of_nat (length l) + of_bits 0 l.
Proof.
  induction l as [|b t IH]; intros acc; cbn [of_bits length].
  - rewrite Z.pow_0_r. lia.
  - rewrite (IH (2 * acc + b2z b)), (IH (2 * 0 + b2z b)).
    rewrite Nat2Z.inj_succ, Z.pow_succ_r by lia. ring.
Qed.

Lemma of_to_bits n v : of_bits 0 (to_bits n v) = v mod 2 ^ Z.of_nat n.
Proof.
  induction n as [|n IH]; [cbn; rewrite Z.mod_1_r; reflexivity|].
  cbn [to_bits of_bits]. rewrite of_bits_acc, IH, to_bits_length.
  rewrite Nat2Z.inj_succ, Z.pow_succ_r by lia.
  set (k := Z.of_nat n). assert (Hk : 0 <= k) by lia.
  assert (Hp : 0 < 2 ^ k) by (apply Z.pow_pos_nonneg; lia).
  assert (E : b2z (Z.testbit v k) = (v / 2 ^ k) mod 2).
  { rewrite <- Z.testbit_spec' by lia. destruct (Z.testbit v k); reflexivity. }
  rewrite E. rewrite (Z.mul_comm 2 (2 ^ k)). rewrite Z.rem_mul_r by lia. ring.
Qed.

Lemma of_bits_range l : 0 <= of_bits 0 l < 2 ^ Z.of_nat (length l).
Proof.
  induction l as [|b t IH]; [cbn; lia|]. cbn [of_bits length].
  rewrite of_bits_acc. rewrite Nat2Z.inj_succ, Z.pow_succ_r by lia.
  destruct b; cbn [b2z]; lia.
Qed.

Lemma of_bits_inj l1 : forall l2, length l1 = length l2 -> of_bits 0 l1 = of_bits 0 l2 -> l1 = l2.
Proof.
  induction l1 as [|a l1 IH]; intros [|b l2] Hl E; cbn in Hl; try discriminate; auto.
  cbn [of_bits] in E. rewrite !(of_bits_acc _ (2 * 0 + _)) in E.
  assert (H1 := of_bits_range l1). assert (H2 := of_bits_range l2).
  assert (Hll : length l2 = length l1) by lia. rewrite Hll in *.
  set (k := 2 ^ Z.of_nat (length l1)) in *.
  assert (a = b) by (destruct a, b; cbn [b2z] in E; try reflexivity; exfalso; lia). subst b.
  f_equal. apply IH; [lia|]. lia.
Qed.

Lemma to_of_bits l : to_bits (length l) (of_bits 0 l) = l.
Proof.
  apply of_bits_inj; [apply to_bits_length|]. rewrite of_to_bits.
  apply Z.mod_small, of_bits_range.
Qed.

Lemma to_bytes_cons a b c d e f g h t :
  to_bytes (a :: b :: c :: d :: e :: f :: g :: h :: t) = of_bits 0 [a; b; c; d; e; f; g; h] :: to_bytes t.
Proof. reflexivity. Qed.

Lemma from_to_bytes k : forall l, length l = (8 * k)%nat ->
  from_bytes (to_bytes l) = l /\ length (to_bytes l) = k /\ Forall is_byte (to_bytes l).
Proof.
  induction k as [|k IH]; intros l Hl.
  - destruct l; [cbn; auto|discriminate].
  - do 8 (destruct l as [|? l]; [cbn in Hl; lia|]).
    destruct (IH l) as (A & B & C); [cbn in Hl; lia|].
    rewrite to_bytes_cons. unfold from_bytes in *. cbn [flat_map length]. rewrite A, B.
    repeat split.
    + set (x := [b; b0; b1; b2; b3; b4; b5; b6]).
      change 8%nat with (length x). rewrite to_of_bits. reflexivity.
    + constructor; [|exact C].
      assert (H := of_bits_range [b; b0; b1; b2; b3; b4; b5; b6]). exact H.
Qed.

Lemma from_bytes_length l : length (from_bytes l) = (8 * length l)%nat.
Proof.
  induction l as [|b t IH]; [reflexivity|]. unfold from_bytes in *. cbn [flat_map].
  rewrite app_length, to_bits_length, IH. cbn; lia.
Qed.

Lemma from_bytes_app a b : from_bytes (a ++ b) = from_bytes a ++ from_bytes b.
Proof. apply flat_map_app. Qed.

(** ** Bit-fields *)
Definition fits (w : nat) (v : Z) : Prop := 0 <= v < 2 ^ Z.of_nat w.

Lemma put_fields_length l : length (put_fields l) = fold_right (fun f n => (fst f + n)%nat) 0%nat l.
Proof.
  induction l as [|f t IH]; [reflexivity|]. unfold put_fields in *. cbn [flat_map fold_right].
  rewrite app_length, to_bits_length, IH. reflexivity.
Qed.

Lemma get_put_fields ws : forall vs r, length vs = length ws ->
  Forall (fun f => fits (fst f) (snd f)) (combine ws vs) ->
  get_fields ws (put_fields (combine ws vs) ++ r) = vs.
Proof.
  induction ws as [|w ws IH]; intros [|v vs] r Hl Hf; cbn in Hl; try discriminate; auto.
  cbn [combine] in *. inversion Hf as [|? ? H1 H2]; subst. cbn [fst snd] in H1.
  unfold put_fields in *. cbn [flat_map get_fields fst snd]. rewrite <- app_assoc.
  rewrite firstn_app, skipn_app, to_bits_length, Nat.sub_diag.
  rewrite (firstn_all2 (to_bits w v)) by (rewrite to_bits_length; lia).
  rewrite (skipn_all2 (to_bits w v)) by (rewrite to_bits_length; lia).
  cbn [firstn skipn app]. rewrite app_nil_r, of_to_bits, Z.mod_small by exact H1.
  f_equal. apply IH; [lia|assumption].
Qed.

Lemma get_fields_fits ws : forall l, (fold_right plus 0 ws <= length l)%nat ->
  Forall (fun f => fits (fst f) (snd f)) (combine ws (get_fields ws l)) /\
  length (get_fields ws l) = length ws.
Proof.
  induction ws as [|w ws IH]; intros l Hl; cbn [get_fields combine length fold_right] in *; [auto|].
  destruct (IH (skipn w l)) as (A & B); [rewrite skipn_length; lia|]. split; [|lia].
  constructor; [|exact A]. unfold fits. cbn [fst snd].
  assert (H := of_bits_range (firstn w l)). rewrite firstn_length_le in H by lia. exact H.
Qed.

(** ** The slot image *)
Lemma op_bytes_ok o : length (op_bytes o) = 6%nat /\ Forall is_byte (op_bytes o) /\
  from_bytes (op_bytes o) = put_fields (combine OP_WIDTHS (op_values o)) ++ repeat false 4.
Proof.
  unfold op_bytes.
  destruct (from_to_bytes 6 (put_fields (combine OP_WIDTHS (op_values o)) ++ repeat false 4))
    as (A & B & C); [|auto].
  rewrite app_length, put_fields_length. reflexivity.
Qed.

Lemma head_bytes_ok p : length (head_bytes p) = 2%nat /\ Forall is_byte (head_bytes p) /\
  from_bytes (head_bytes p)
  = put_fields (combine HEAD_WIDTHS [p_alg p; p_fb p; p_ams p; p_fms p]) ++ repeat false 5.
Proof.
  unfold head_bytes.
  destruct (from_to_bytes 2 (put_fields (combine HEAD_WIDTHS [p_alg p; p_fb p; p_ams p; p_fms p]) ++ repeat false 5))
    as (A & B & C); [|auto].
  rewrite app_length, put_fields_length. reflexivity.
Qed.

Lemma op_round_trip o : op_ok o -> op_of_bytes (op_bytes o) = o.
Proof.
  intros H. unfold op_ok in H. unfold op_of_bytes.
  destruct (op_bytes_ok o) as (_ & _ & ->).
  rewrite get_put_fields; [|reflexivity|].
  - unfold op_values. destruct o; reflexivity.
  - unfold OP_WIDTHS, op_values. cbn [combine].
    repeat apply Forall_cons; try apply Forall_nil; unfold fits; cbn [fst snd]; cbn; lia.
Qed.

Lemma flat_ops_length l : length (flat_map op_bytes l) = (6 * length l)%nat.
Proof.
  induction l as [|o t IH]; [reflexivity|]. cbn [flat_map]. rewrite app_length, IH.
  destruct (op_bytes_ok o) as (-> & _). cbn; lia.
Qed.

Lemma preset_bytes_ok p : preset_ok p ->
  length (preset_bytes p) = 26%nat /\ Forall is_byte (preset_bytes p).
Proof.
  intros (_ & _ & _ & _ & Hl & _). unfold preset_bytes.
  destruct (head_bytes_ok p) as (A & B & _). rewrite app_length, A, flat_ops_length, Hl.
  split; [reflexivity|]. apply Forall_app. split; [exact B|].
  apply Forall_flat_map. apply Forall_forall. intros o _. apply op_bytes_ok.
Qed.

Lemma preset_round_trip p : preset_ok p -> preset_of_bytes (preset_bytes p) = p.
Proof.
  intros (H1 & H2 & H3 & H4 & Hl & Ho). unfold preset_of_bytes, preset_bytes.
  destruct (head_bytes_ok p) as (A & _ & C).
  destruct p as [alg fb ams fms ops]. cbn [p_alg p_fb p_ams p_fms p_ops] in *.
  destruct ops as [|o0 [|o1 [|o2 [|o3 [|]]]]]; try discriminate.
  inversion Ho as [|? ? Q0 Ho1]; subst. inversion Ho1 as [|? ? Q1 Ho2]; subst.
  inversion Ho2 as [|? ? Q2 Ho3]; subst. inversion Ho3 as [|? ? Q3 _]; subst. clear Ho Ho1 Ho2 Ho3 Hl.
  set (hb := head_bytes (mkPreset alg fb ams fms [o0; o1; o2; o3])) in *. clearbody hb.
  destruct hb as [|h0 [|h1 [|]]]; try discriminate.
  assert (R0 := op_round_trip o0 Q0). assert (R1 := op_round_trip o1 Q1).
  assert (R2 := op_round_trip o2 Q2). assert (R3 := op_round_trip o3 Q3).
  destruct (op_bytes_ok o0) as (L0 & _). destruct (op_bytes_ok o1) as (L1 & _).
  destruct (op_bytes_ok o2) as (L2 & _). destruct (op_bytes_ok o3) as (L3 & _).
  cbn [flat_map app map Nat.add Nat.mul]. rewrite !app_nil_r. cbn [firstn].
  rewrite C. rewrite get_put_fields; [|reflexivity|].
  2:{ cbn [combine HEAD_WIDTHS].
      repeat apply Forall_cons; try apply Forall_nil; unfold fits; cbn [fst snd]; cbn; lia. }
  set (b0 := op_bytes o0) in *. set (b1 := op_bytes o1) in *.
  set (b2 := op_bytes o2) in *. set (b3 := op_bytes o3) in *. clearbody b0 b1 b2 b3.
  destruct b0 as [|? [|? [|? [|? [|? [|? [|]]]]]]]; try discriminate.
  destruct b1 as [|? [|? [|? [|? [|? [|? [|]]]]]]]; try discriminate.
  destruct b2 as [|? [|? [|? [|? [|? [|? [|]]]]]]]; try discriminate.
  destruct b3 as [|? [|? [|? [|? [|? [|? [|]]]]]]]; try discriminate.
  cbn [app skipn firstn]. rewrite R0, R1, R2, R3. reflexivity.
Qed.

Lemma slot_body_ok p : preset_ok p ->
  length (slot_body p) = 34%nat /\ Forall is_byte (slot_body p).
Proof.
  intros H. destruct (preset_bytes_ok p H) as (A & B). unfold slot_body.
  rewrite !app_length, A. split; [reflexivity|].
  apply Forall_app. split; [repeat constructor; unfold is_byte; lia|].
  apply Forall_app. split; [exact B|]. repeat constructor; unfold is_byte; lia.
Qed.

Lemma bytes_is l : bytes l <-> Forall is_byte l.
Proof. split; intros H; exact H. Qed.

Lemma slot_bytes_ok p : preset_ok p ->
  length (slot_bytes p) = 36%nat /\ Forall is_byte (slot_bytes p).
Proof.
  intros H. destruct (slot_body_ok p H) as (A & B). unfold slot_bytes. cbv zeta.
  assert (R := crc_range (slot_body p) B).
  rewrite app_length, A. split; [reflexivity|]. apply Forall_app. split; [exact B|].
  repeat constructor; unfold is_byte; lia.
Qed.

Lemma firstn_exact {A} n (a b : list A) : length a = n -> firstn n (a ++ b) = a.
Proof. intros <-. rewrite firstn_app, Nat.sub_diag, firstn_all. cbn [firstn]. apply app_nil_r. Qed.
Lemma skipn_exact {A} n (a b : list A) : length a = n -> skipn n (a ++ b) = b.
Proof. intros <-. rewrite skipn_app, Nat.sub_diag, skipn_all. reflexivity. Qed.

(** ** What a slot image holds *)
Definition slot_value (slot : list Z) : option preset :=
  match slot with
  | hi :: lo :: _ =>
      if negb (Z.lor (Z.shiftl hi 8) lo =? 0x9E1D) then None
      else if negb (match skipn 34 slot with [a; b] => a * 256 + b | _ => 0 end
                    =? crc_calc_crc16 (firstn 34 slot)) then None
      else Some (preset_of_bytes (firstn 26 (skipn 3 slot)))
  | _ => None
  end.

Lemma slot_value_saved p : preset_ok p -> slot_value (slot_bytes p) = Some p.
Proof.
  intros H. destruct (slot_body_ok p H) as (A & B). assert (R := crc_range (slot_body p) B).
  destruct (preset_bytes_ok p H) as (A' & B').
  unfold slot_bytes. cbv zeta. set (crc := crc_calc_crc16 (slot_body p)) in *.
  unfold slot_value.
  assert (E1 : firstn 34 (slot_body p ++ [crc / 256; crc mod 256]) = slot_body p).
  { apply firstn_exact. exact A. }
  assert (E2 : skipn 34 (slot_body p ++ [crc / 256; crc mod 256]) = [crc / 256; crc mod 256]).
  { apply skipn_exact. exact A. }
  assert (E3 : firstn 26 (skipn 3 (slot_body p ++ [crc / 256; crc mod 256])) = preset_bytes p).
  { unfold slot_body. cbn [app skipn]. rewrite <- app_assoc. apply firstn_exact. exact A'. }
  rewrite E1, E2, E3. fold crc.
  unfold slot_body at 1. cbn [app].
  change (Z.lor (Z.shiftl 158 8) 29 =? 0x9E1D) with true. cbn [negb].
  replace (crc / 256 * 256 + crc mod 256) with crc by lia.
  rewrite Z.eqb_refl. cbn [negb]. rewrite preset_round_trip by assumption. reflexivity.
Qed.

(** ** Memory *)
Lemma slot_offset_eq n : is_program n -> slot_offset n = 32 + 36 * n.
Proof. intros H. unfold is_program in H. unfold slot_offset, u16. apply Z.mod_small. lia. Qed.

(** Memory after writing [l] at [off]. *)
Fixpoint splice (mem : list Z) (off : Z) (l : list Z) : list Z :=
  match l with [] => mem | b :: t => splice (zset mem off b) (off + 1) t end.

Lemma splice_length l : forall mem off, length (splice mem off l) = length mem.
Proof. induction l; intros; cbn; [reflexivity|]. rewrite IHl, zset_length. reflexivity. Qed.

Lemma splice_bytes l : forall mem off, Forall is_byte mem -> Forall is_byte l -> Forall is_byte (splice mem off l).
Proof.
  induction l as [|b t IH]; intros mem off Hm Hl; cbn; [exact Hm|].
  inversion Hl; subst. apply IH; [apply Forall_zset; assumption|assumption].
Qed.

Lemma splice_get l : forall mem off a, 0 <= off -> off + Z.of_nat (length l) <= Z.of_nat (length mem) ->
  zget (splice mem off l) a
  = if (off <=? a) && (a <? off + Z.of_nat (length l)) then zget l (a - off) else zget mem a.
Proof.
  induction l as [|b t IH]; intros mem off a Ho Hl.
  - cbn [splice length]. replace ((off <=? a) && (a <? off + Z.of_nat 0)) with false by lia. reflexivity.
  - cbn [splice length] in *. rewrite IH by (rewrite ?zset_length; lia).
    destruct (Z.eq_dec a off) as [->|Hne].
    + replace ((off + 1 <=? off) && (off <? off + 1 + Z.of_nat (length t))) with false by lia.
      replace ((off <=? off) && (off <? off + Z.of_nat (S (length t)))) with true by lia.
      rewrite Z.sub_diag. destruct (zget_in_range mem off) as (x & Hx); [lia|].
      rewrite (zget_zset_same mem off b) by lia. reflexivity.
    + rewrite zget_zset_other by lia.
      destruct ((off + 1 <=? a) && (a <? off + 1 + Z.of_nat (length t))) eqn:E.
      * replace ((off <=? a) && (a <? off + Z.of_nat (S (length t)))) with true by lia.
        replace (a - off) with ((a - (off + 1)) + 1) by lia.
        unfold zget. replace (a - (off + 1) <? 0) with false by lia.
        replace (a - (off + 1) + 1 <? 0) with false by lia.
        rewrite Z2Nat.inj_add by lia. rewrite Nat.add_comm. reflexivity.
      * replace ((off <=? a) && (a <? off + Z.of_nat (S (length t)))) with false by lia. reflexivity.
Qed.

Definition writes (off : Z) (l : list Z) : list event :=
  map (fun p => EvSramWrite (fst p) (snd p)) (combine (zseq off (length l)) l).

Lemma write_bytes_eq l : forall off s, 0 <= off ->
  off + Z.of_nat (length l) <= Z.of_nat (length (sr_mem s)) -> off + Z.of_nat (length l) < 65536 ->
  write_bytes off l s = Done tt (sr_set_mem s (splice (sr_mem s) off l)) (writes off l).
Proof.
  induction l as [|b t IH]; intros off s Ho Hl Hu.
  - cbn. destruct s; reflexivity.
  - cbn [write_bytes length] in *. unfold bind, sram_write, sram_read, get, rd, modify, emit, ret.
    destruct (zget_in_range (sr_mem s) off) as (x & Hx); [lia|].
    unfold bind. rewrite Hx. cbn [app]. cbn [sr_set_mem sr_mem].
    rewrite (zget_zset_same (sr_mem s) off b) by lia.
    unfold u16. rewrite (Z.mod_small (off + 1)) by lia.
    rewrite IH by (cbn [sr_set_mem sr_mem]; rewrite ?zset_length; lia).
    reflexivity.
Qed.

Lemma read_bytes_eq n : forall off s, 0 <= off -> off + Z.of_nat n <= Z.of_nat (length (sr_mem s)) ->
  read_bytes off n s = Done (firstn n (skipn (Z.to_nat off) (sr_mem s))) s [].
Proof.
  induction n as [|n IH]; intros off s Ho Hl; [reflexivity|].
  cbn [read_bytes]. unfold bind, sram_read, get, rd, ret, bind.
  destruct (zget_in_range (sr_mem s) off) as (x & Hx); [lia|]. rewrite Hx.
  rewrite IH by lia. cbn [app].
  assert (E : skipn (Z.to_nat off) (sr_mem s) = x :: skipn (Z.to_nat (off + 1)) (sr_mem s)).
  { unfold zget in Hx. replace (off <? 0) with false in Hx by lia.
    rewrite Z2Nat.inj_add by lia. change (Z.to_nat 1) with 1%nat.
    rewrite Nat.add_1_r. generalize dependent (Z.to_nat off). intros k.
    generalize (sr_mem s). clear. induction k; intros [|y l] H; cbn in *; try discriminate.
    - congruence.
    - rewrite <- (IHk l) by assumption. destruct l; reflexivity. }
  rewrite E. reflexivity.
Qed.

Lemma slot_at_length s n : sram_ok s -> is_program n -> length (slot_at s n) = 36%nat.
Proof.
  intros (Hm & _) Hn. unfold is_program in Hn. unfold slot_at.
  rewrite firstn_length, skipn_length. lia.
Qed.

Lemma load_slot_eq s n : sram_ok s -> is_program n ->
  load_slot n s = Done (slot_value (slot_at s n)) s [].
Proof.
  intros Hs Hn. assert (HL := slot_at_length s n Hs Hn). destruct Hs as (Hm & _).
  unfold load_slot. rewrite slot_offset_eq by assumption. unfold is_program in Hn.
  cbv zeta. set (off := 32 + 36 * n) in *.
  assert (R : forall i, 0 <= i < 36 ->
    sram_read (off + i) s = Done (nth (Z.to_nat i) (slot_at s n) 0) s []).
  { intros i Hi. unfold sram_read, get, rd, bind.
    destruct (zget_in_range (sr_mem s) (off + i)) as (x & Hx); [lia|]. rewrite Hx.
    unfold ret. cbn [app]. f_equal. symmetry.
    unfold zget in Hx. replace (off + i <? 0) with false in Hx by lia.
    apply nth_error_nth. unfold slot_at. fold off.
    assert (NF : forall (l : list Z) a b, (a < b)%nat -> nth_error (firstn b l) a = nth_error l a).
    { induction l; intros [|p] [|q] Hlt; cbn; try lia; auto. apply IHl; lia. }
    assert (NS : forall k (l : list Z) a, nth_error (skipn k l) a = nth_error l (k + a)).
    { clear. induction k; intros [|y l] a; cbn; auto. destruct a; reflexivity. }
    rewrite NF by lia. rewrite NS. rewrite <- Hx. f_equal. lia. }
  assert (R0 := R 0 ltac:(lia)). rewrite Z.add_0_r in R0. assert (R1 := R 1 ltac:(lia)). clear R.
  unfold bind at 1. rewrite R0. unfold bind at 1. rewrite R1.
  change (Z.to_nat 0) with 0%nat. change (Z.to_nat 1) with 1%nat. clear R0 R1. unfold bind.
  assert (RB : read_bytes off 36 s = Done (slot_at s n) s []) by (rewrite read_bytes_eq by lia; reflexivity).
  set (sl := slot_at s n) in *. clearbody sl.
  destruct sl as [|hi [|lo t]]; try discriminate. cbn [nth]. unfold slot_value.
  destruct (negb (Z.lor (Z.shiftl hi 8) lo =? 0x9E1D)); [reflexivity|]. rewrite RB.
  destruct (negb (_ =? crc_calc_crc16 (firstn 34 (hi :: lo :: t)))); reflexivity.
Qed.

Lemma load_slots_eq l : forall s, sram_ok s -> (forall n, In n l -> is_program n) ->
  load_slots l s = Done (map (fun n => slot_value (slot_at s n)) l) s [].
Proof.
  induction l as [|n l IH]; intros s Hs Hl; [reflexivity|].
  cbn [load_slots]. unfold bind. rewrite load_slot_eq; [|assumption|apply Hl; left; reflexivity].
  rewrite IH; [|assumption|intros k Hk; apply Hl; right; assumption]. reflexivity.
Qed.

(** Bus and flag after an enable/disable pair. *)
Definition toggled (s : sram) : sram := mkSram (sr_present s) (sr_mem s) false (negb (sr_bus s)).
Definition toggle_on (s : sram) : list event := if sr_bus s then [] else [EvZ80Req].
Definition toggle_off (s : sram) : list event := if sr_bus s then [EvZ80Rel] else [].

Lemma enable_eq s : sram_enable s = Done tt (sr_set_taken (sr_set_bus s true) (sr_bus s)) (toggle_on s).
Proof. unfold sram_enable, toggle_on, bind, gets, when, emit, modify, ret. destruct (sr_bus s); reflexivity. Qed.
Lemma disable_eq s b : sr_taken s = b -> sr_bus s = true ->
  sram_disable s = Done tt (mkSram (sr_present s) (sr_mem s) false (negb b)) (if b then [EvZ80Rel] else []).
Proof.
  intros <- Hb. unfold sram_disable, bind, gets, when, emit, modify, ret.
  destruct s as [pr mem tk bus]; cbn in *. subst bus. destruct tk; reflexivity.
Qed.

Lemma load_presets_eq s : sram_ok s -> sr_present s = true ->
  sram_load_presets s
  = Done (map (fun n => slot_value (slot_at s n)) (zseq 0 128)) (toggled s) (toggle_on s ++ toggle_off s).
Proof.
  intros Hs Hp. unfold sram_load_presets, bind, gets. rewrite Hp. cbn [negb].
  rewrite enable_eq.
  set (s1 := sr_set_taken (sr_set_bus s true) (sr_bus s)).
  rewrite load_slots_eq.
  - rewrite (disable_eq s1 (sr_bus s)); [|destruct s; reflexivity|reflexivity].
    unfold ret, toggled, toggle_off, slot_at. cbn [s1 sr_set_taken sr_set_bus sr_present sr_mem app].
    rewrite !app_nil_r. reflexivity.
  - exact Hs.
  - intros n Hn. apply in_zseq in Hn. unfold is_program. lia.
Qed.

Lemma load_absent s : sr_present s = false -> sram_load_presets s = Done (repeat None 128) s [].
Proof. intros Hp. unfold sram_load_presets, bind, gets. rewrite Hp. reflexivity. Qed.

Lemma zget_zseq a n i : 0 <= i < Z.of_nat n -> zget (zseq a n) i = Some (a + i).
Proof.
  revert a i; induction n as [|n IH]; intros a i Hi; [lia|].
  destruct (Z.eq_dec i 0) as [->|Hne]; [cbn; rewrite Z.add_0_r; reflexivity|].
  unfold zget in *. replace (i <? 0) with false by lia.
  assert (H := IH (a + 1) (i - 1) ltac:(lia)). replace (i - 1 <? 0) with false in H by lia.
  replace (Z.to_nat i) with (S (Z.to_nat (i - 1))) by lia. cbn [zseq nth_error].
  rewrite H. f_equal. lia.
Qed.

Lemma zget_map' {A B} (f : A -> B) l i x : zget l i = Some x -> zget (map f l) i = Some (f x).
Proof. unfold zget. destruct (i <? 0); [discriminate|]. apply map_nth_error. Qed.

Lemma loads_iff s n r : sram_ok s -> sr_present s = true -> is_program n ->
  (loads s n r <-> r = slot_value (slot_at s n)).
Proof.
  intros Hs Hp Hn. unfold loads. rewrite load_presets_eq by assumption.
  assert (E : zget (map (fun n => slot_value (slot_at s n)) (zseq 0 128)) n = Some (slot_value (slot_at s n))).
  { apply (zget_map' (fun n => slot_value (slot_at s n))). rewrite zget_zseq; [reflexivity|].
    unfold is_program in Hn. lia. }
  set (L := map _ (zseq 0 128)) in *. clearbody L. split.
  - intros (l & s' & o & [= <- _ _] & H). congruence.
  - intros ->. do 3 eexists. split; [reflexivity|exact E].
Qed.

(** ** Save and clear *)
Lemma firstn_skipn_get (m : list Z) off k : (off + k <= length m)%nat ->
  forall i, 0 <= i < Z.of_nat k -> zget (firstn k (skipn off m)) i = zget m (Z.of_nat off + i).
Proof.
  intros Hl i Hi. unfold zget. replace (i <? 0) with false by lia.
  replace (Z.of_nat off + i <? 0) with false by lia.
  assert (NF : forall (l : list Z) a b, (a < b)%nat -> nth_error (firstn b l) a = nth_error l a).
  { clear. induction l; intros [|p] [|q] Hlt; cbn; try lia; auto. apply IHl; lia. }
  assert (NS : forall k (l : list Z) a, nth_error (skipn k l) a = nth_error l (k + a)).
  { clear. induction k; intros [|y l] a; cbn; auto. destruct a; reflexivity. }
  rewrite NF by lia. rewrite NS. f_equal. lia.
Qed.

(** Two memories with the same bytes in the slot have the same slot. *)
Lemma slot_at_ext s s' n l : sram_ok s -> length (sr_mem s') = length (sr_mem s) -> is_program n ->
  length l = 36%nat ->
  (forall i, 0 <= i < 36 -> zget (sr_mem s') (32 + 36 * n + i) = zget l i) -> slot_at s' n = l.
Proof.
  intros (Hm & _) El Hn Hl H. unfold is_program in Hn.
  assert (L : length (slot_at s' n) = 36%nat).
  { unfold slot_at. rewrite firstn_length, skipn_length. lia. }
  apply zget_ext. intros i Hi. destruct (Z_lt_ge_dec i 36) as [Hlt|Hge].
  - unfold slot_at. rewrite firstn_skipn_get by lia. rewrite <- H by lia. f_equal. lia.
  - transitivity (@None Z); [apply zget_None; lia|symmetry; apply zget_None; lia].
Qed.

Lemma slot_at_get s n i : sram_ok s -> is_program n -> 0 <= i < 36 ->
  zget (slot_at s n) i = zget (sr_mem s) (32 + 36 * n + i).
Proof.
  intros (Hm & _) Hn Hi. unfold is_program in Hn. unfold slot_at.
  rewrite firstn_skipn_get by lia. f_equal. lia.
Qed.

Definition saved (s : sram) (n : Z) (p : preset) : sram :=
  mkSram (sr_present s) (splice (sr_mem s) (32 + 36 * n) (slot_bytes p)) false (negb (sr_bus s)).
Lemma save_eq s n p : sram_ok s -> sr_present s = true -> is_program n -> preset_ok p ->
  sram_save_preset n p s
  = Done tt (saved s n p) (toggle_on s ++ writes (32 + 36 * n) (slot_bytes p) ++ toggle_off s).
Proof.
  intros (Hm & Hb) Hp Hn Hk. destruct (slot_bytes_ok p Hk) as (L & _).
  unfold sram_save_preset, bind, gets, when. rewrite Hp. rewrite enable_eq.
  rewrite slot_offset_eq by assumption. unfold is_program in Hn.
  set (s1 := sr_set_taken (sr_set_bus s true) (sr_bus s)).
  rewrite write_bytes_eq by (cbn [s1 sr_set_taken sr_set_bus sr_mem]; lia).
  set (s2 := sr_set_mem s1 _).
  rewrite (disable_eq s2 (sr_bus s)) by reflexivity.
  cbn [app]. unfold saved, toggle_off. reflexivity.
Qed.

Definition cleared (s : sram) (n : Z) : sram :=
  mkSram (sr_present s) (splice (sr_mem s) (32 + 36 * n) [0; 0]) false (negb (sr_bus s)).
Lemma clear_eq s n : sram_ok s -> sr_present s = true -> is_program n ->
  sram_clear_preset n s
  = Done tt (cleared s n) (toggle_on s ++ writes (32 + 36 * n) [0; 0] ++ toggle_off s).
Proof.
  intros (Hm & Hb) Hp Hn.
  unfold sram_clear_preset, bind, gets, when. rewrite Hp. rewrite enable_eq.
  rewrite slot_offset_eq by assumption. unfold is_program in Hn.
  set (s1 := sr_set_taken (sr_set_bus s true) (sr_bus s)).
  unfold sram_write, bind, get, rd, emit, modify, ret.
  destruct (zget_in_range (sr_mem s1) (32 + 36 * n)) as (x & Hx); [cbn [s1 sr_set_taken sr_set_bus sr_mem]; lia|].
  rewrite Hx. cbn [app].
  set (s2 := sr_set_mem s1 _).
  destruct (zget_in_range (sr_mem s2) (32 + 36 * n + 1)) as (y & Hy).
  { cbn [s2 s1 sr_set_mem sr_set_taken sr_set_bus sr_mem]. rewrite zset_length. lia. }
  rewrite Hy. cbn [app].
  set (s3 := sr_set_mem s2 _).
  rewrite (disable_eq s3 (sr_bus s)) by reflexivity. reflexivity.
Qed.

Lemma saved_ok s n p : sram_ok s -> preset_ok p -> sram_ok (saved s n p).
Proof.
  intros (Hm & Hb) Hk. destruct (slot_bytes_ok p Hk) as (_ & B). split; cbn [saved sr_mem].
  - rewrite splice_length. exact Hm.
  - apply splice_bytes; assumption.
Qed.
Lemma cleared_ok s n : sram_ok s -> sram_ok (cleared s n).
Proof.
  intros (Hm & Hb). split; cbn [cleared sr_mem].
  - rewrite splice_length. exact Hm.
  - apply splice_bytes; [assumption|]. repeat constructor; unfold is_byte; lia.
Qed.

Lemma slot_at_splice_other s s' n k l : sram_ok s -> is_program n -> is_program k -> n <> k ->
  (length l <= 36)%nat -> sr_mem s' = splice (sr_mem s) (32 + 36 * n) l -> slot_at s' k = slot_at s k.
Proof.
  intros Hs Hn Hk Hne Hl E. assert (Hm := proj1 Hs). unfold is_program in *.
  apply (slot_at_ext s); [assumption|rewrite E; apply splice_length|assumption| |].
  - apply slot_at_length; assumption.
  - intros i Hi. rewrite E, splice_get by lia.
    rewrite slot_at_get by assumption.
    destruct ((32 + 36 * n <=? 32 + 36 * k + i) && (32 + 36 * k + i <? 32 + 36 * n + Z.of_nat (length l))) eqn:Q;
      [|reflexivity].
    exfalso. lia.
Qed.

Lemma slot_at_saved s n p : sram_ok s -> is_program n -> preset_ok p ->
  slot_at (saved s n p) n = slot_bytes p.
Proof.
  intros Hs Hn Hk. assert (Hm := proj1 Hs). destruct (slot_bytes_ok p Hk) as (L & _). unfold is_program in Hn.
  apply (slot_at_ext s); [assumption|cbn [saved sr_mem]; apply splice_length|assumption|assumption|].
  intros i Hi. cbn [saved sr_mem]. rewrite splice_get by lia.
  replace ((32 + 36 * n <=? 32 + 36 * n + i) && (32 + 36 * n + i <? 32 + 36 * n + Z.of_nat (length (slot_bytes p)))) with true by lia.
  f_equal. lia.
Qed.

Lemma bad_magic hi t : hi = 0 -> Forall is_byte (hi :: t) -> slot_value (hi :: t) = None.
Proof.
  intros -> H. destruct t as [|lo t]; [reflexivity|]. unfold slot_value.
  inversion H as [|? ? _ H2]; subst. inversion H2 as [|? ? H3 _]; subst. unfold is_byte in H3.
  change (Z.shiftl 0 8) with 0. rewrite Z.lor_0_l.
  replace (lo =? 0x9E1D) with false by lia. reflexivity.
Qed.

Lemma slot_at_bytes s n : sram_ok s -> Forall is_byte (slot_at s n).
Proof.
  intros (_ & Hb). unfold slot_at.
  rewrite <- (firstn_skipn (Z.to_nat (32 + 36 * n)) (sr_mem s)) in Hb. apply Forall_app in Hb as (_ & Hb).
  rewrite <- (firstn_skipn 36 (skipn _ _)) in Hb. apply Forall_app in Hb as (Hb & _). exact Hb.
Qed.

Lemma zero_head s n : sram_ok s -> is_program n -> zget (sr_mem s) (32 + 36 * n) = Some 0 ->
  slot_value (slot_at s n) = None.
Proof.
  intros Hs Hn H. assert (B := slot_at_bytes s n Hs). assert (L := slot_at_length s n Hs Hn).
  assert (G := slot_at_get s n 0 Hs Hn ltac:(lia)). rewrite Z.add_0_r, H in G.
  destruct (slot_at s n) as [|h t]; [discriminate|]. apply bad_magic; [|assumption].
  change (Some h = Some 0) in G. congruence.
Qed.

Lemma value_cleared s n : sram_ok s -> is_program n -> slot_value (slot_at (cleared s n) n) = None.
Proof.
  intros Hs Hn. apply zero_head; [apply cleared_ok; assumption|assumption|].
  assert (Hm := proj1 Hs). unfold is_program in Hn.
  cbn [cleared sr_mem]. rewrite splice_get by (cbn [length]; lia). cbn [length].
  replace ((32 + 36 * n <=? 32 + 36 * n) && (32 + 36 * n <? 32 + 36 * n + Z.of_nat 2)) with true by lia.
  rewrite Z.sub_diag. reflexivity.
Qed.

(** ** C17, C18 *)
Lemma c17 s n p : sram_ok s -> sr_present s = true -> is_program n -> preset_ok p ->
  exists s' o, sram_save_preset n p s = Done tt s' o /\ loads s' n (Some p).
Proof.
  intros Hs Hp Hn Hk. do 2 eexists. split; [apply save_eq; assumption|].
  apply loads_iff; [apply saved_ok; assumption|exact Hp|assumption|].
  rewrite slot_at_saved by assumption. rewrite slot_value_saved by assumption. reflexivity.
Qed.

Lemma c18_step s op : sram_ok s -> sr_present s = true -> rop_ok op ->
  exists s' o, sram_step op s = Done tt s' o /\ sram_ok s' /\ sr_present s' = true /\
    forall t : table, (forall n, is_program n -> loads s n (t n)) ->
      forall n, is_program n -> loads s' n (table_step t op n).
Proof.
  intros Hs Hp Ho. destruct op as [k p|k]; cbn [rop_ok] in Ho.
  - destruct Ho as (Hk & Hpr). cbn [sram_step]. do 2 eexists.
    split; [apply save_eq; assumption|].
    split; [apply saved_ok; assumption|]. split; [exact Hp|]. intros t Ht n Hn.
    assert (Ok := saved_ok s k p Hs Hpr).
    apply loads_iff; [assumption|exact Hp|assumption|]. cbn [table_step].
    destruct (Z.eqb_spec n k) as [->|Hne].
    + rewrite slot_at_saved, slot_value_saved by assumption. reflexivity.
    + rewrite (slot_at_splice_other s (saved s k p) k n (slot_bytes p));
        [|assumption|assumption|assumption|auto|destruct (slot_bytes_ok p Hpr); lia|reflexivity].
      apply loads_iff; auto.
  - cbn [sram_step]. do 2 eexists. split; [apply clear_eq; assumption|].
    split; [apply cleared_ok; assumption|]. split; [exact Hp|]. intros t Ht n Hn.
    assert (Ok := cleared_ok s k Hs).
    apply loads_iff; [assumption|exact Hp|assumption|]. cbn [table_step].
    destruct (Z.eqb_spec n k) as [->|Hne].
    + rewrite value_cleared by assumption. reflexivity.
    + rewrite (slot_at_splice_other s (cleared s k) k n [0; 0]);
        [|assumption|assumption|assumption|auto|cbn; lia|reflexivity].
      apply loads_iff; auto.
Qed.

Lemma c18 ops : forall s (t : table), sram_ok s -> sr_present s = true -> Forall rop_ok ops ->
  (forall n, is_program n -> loads s n (t n)) ->
  exists s' o, sram_run ops s = Done tt s' o /\
    forall n, is_program n -> loads s' n (fold_left table_step ops t n).
Proof.
  induction ops as [|op ops IH]; intros s t Hs Hp Ho Ht.
  - do 2 eexists. split; [reflexivity|]. exact Ht.
  - inversion Ho as [|? ? H1 H2]; subst.
    destruct (c18_step s op Hs Hp H1) as (s1 & o1 & E1 & Hs1 & Hp1 & Hstep).
    destruct (IH s1 (table_step t op) Hs1 Hp1 H2 (Hstep t Ht)) as (s2 & o2 & E2 & Hl).
    exists s2, (o1 ++ o2). split; [|exact Hl].
    unfold sram_run in *. cbn [runM]. unfold bind. rewrite E1, E2. reflexivity.
Qed.

(** Every memory loads as some table. *)
Lemma loads_some s n : sram_ok s -> sr_present s = true -> is_program n -> exists r, loads s n r.
Proof. intros Hs Hp Hn. eexists. apply loads_iff; auto. Qed.

(** ** C19 *)
Lemma byte_bits_to_bits b : byte_bits b = to_bits 8 b.
Proof. reflexivity. Qed.

Lemma slot_value_some l p : Forall is_byte l -> length l = 36%nat -> slot_value l = Some p ->
  crc_calc_crc16 l = 0.
Proof.
  intros Hb Hl H. unfold slot_value in H.
  assert (E : l = firstn 34 l ++ skipn 34 l) by (symmetry; apply firstn_skipn).
  assert (Hl2 : length (skipn 34 l) = 2%nat) by (rewrite skipn_length; lia).
  destruct l as [|hi [|lo t]]; try discriminate.
  destruct (negb (Z.lor (Z.shiftl hi 8) lo =? 0x9E1D)); [discriminate|].
  set (l := hi :: lo :: t) in *. clearbody l.
  rewrite E in Hb. apply Forall_app in Hb as (B1 & B2).
  destruct (skipn 34 l) as [|a [|b [|]]]; try discriminate.
  destruct (Z.eqb_spec (a * 256 + b) (crc_calc_crc16 (firstn 34 l))) as [Q|Q]; [|discriminate].
  rewrite E. inversion B2 as [|? ? Ba B3]; subst. inversion B3 as [|? ? Bb _]; subst.
  apply crc_check_iff; [exact B1|exact Ba|exact Bb|exact Q].
Qed.

Lemma slot_value_none l : Forall is_byte l -> length l = 36%nat -> crc_calc_crc16 l <> 0 ->
  slot_value l = None.
Proof.
  intros Hb Hl H. destruct (slot_value l) eqn:E; [|reflexivity].
  exfalso. apply H. apply (slot_value_some l p); assumption.
Qed.

Lemma xor_bytes_length a : forall b, length a = length b -> length (xor_bytes a b) = length a.
Proof. induction a; intros [|y b] H; cbn in *; try discriminate; auto. Qed.

Lemma burst_rejected l e p : Forall is_byte l -> Forall is_byte e -> length l = 36%nat -> length e = 36%nat ->
  slot_value l = Some p -> burst16 (msg_bits e) -> slot_value (xor_bytes l e) = None.
Proof.
  intros Hb He Hl Hle Hv Hbu.
  apply slot_value_none; [apply bytes_xor; assumption|rewrite xor_bytes_length; lia|].
  intros H0. assert (Hc := slot_value_some l p Hb Hl Hv).
  assert (D := crc_difference l (xor_bytes l e) Hb (bytes_xor l e Hb He)
                 ltac:(rewrite xor_bytes_length; lia)).
  rewrite Hc, H0 in D. rewrite Z.lxor_nilpotent in D.
  assert (X : xor_bytes l (xor_bytes l e) = e).
  { assert (Hle' : length l = length e) by lia. clear - Hle'. revert e Hle'.
    induction l as [|x l IH]; intros [|y e] H; cbn in *; try discriminate; auto.
    rewrite <- Z.lxor_assoc, Z.lxor_nilpotent, Z.lxor_0_l. f_equal. apply IH. lia. }
  rewrite X in D. rewrite crc_fold_spec in D; [|exact He|lia].
  apply (burst_nonzero (msg_bits e) Hbu). symmetry. exact D.
Qed.

Lemma c19 s s' n p e : sram_ok s -> sram_ok s' -> sr_present s = true -> sr_present s' = true -> is_program n ->
  loads s n (Some p) ->
  length e = 36%nat -> Forall is_byte e -> burst16 (msg_bits e) ->
  slot_at s' n = xor_bytes (slot_at s n) e -> loads s' n None.
Proof.
  intros Hs Hs' Hp Hp' Hn Hl He Hbe Hb E.
  apply loads_iff in Hl; [|assumption|assumption|assumption].
  apply loads_iff; [assumption|assumption|assumption|]. rewrite E. symmetry.
  apply (burst_rejected (slot_at s n) e p); auto using slot_at_bytes, slot_at_length.
Qed.

(** ** C23: the bus *)
Lemma c23_flip s op : sram_ok s -> sr_present s = true -> rop_ok op ->
  exists s' o, sram_step op s = Done tt s' o /\ sr_bus s' = negb (sr_bus s).
Proof.
  intros Hs Hp Ho. destruct op as [n p|n]; cbn [rop_ok sram_step] in *.
  - do 2 eexists. split; [apply save_eq; tauto|reflexivity].
  - do 2 eexists. split; [apply clear_eq; tauto|reflexivity].
Qed.
Lemma c23_load_flip s : sram_ok s -> sr_present s = true ->
  exists l s' o, sram_load_presets s = Done l s' o /\ sr_bus s' = negb (sr_bus s).
Proof. intros Hs Hp. do 3 eexists. split; [apply load_presets_eq; assumption|reflexivity]. Qed.
Lemma c23_absent s op : sr_present s = false ->
  sram_step op s = Done tt s [] /\ sram_load_presets s = Done (repeat None 128) s [].
Proof.
  intros Hp. split; [|apply load_absent; assumption].
  destruct op; cbn [sram_step]; unfold sram_save_preset, sram_clear_preset, bind, gets, when; rewrite Hp; reflexivity.
Qed.

(** ** C21: power loss *)
Lemma fold_toggle_on s mem k : fold_left write_through (firstn k (toggle_on s)) mem = mem.
Proof. unfold toggle_on. destruct (sr_bus s), k as [|[|k]]; reflexivity. Qed.
Lemma fold_toggle_off s mem k : fold_left write_through (firstn k (toggle_off s)) mem = mem.
Proof. unfold toggle_off. destruct (sr_bus s), k as [|[|k]]; reflexivity. Qed.

Lemma writes_length off l : length (writes off l) = length l.
Proof. unfold writes. rewrite map_length, combine_length, zseq_length. lia. Qed.

Lemma writes_cons off b l : writes off (b :: l) = EvSramWrite off b :: writes (off + 1) l.
Proof. reflexivity. Qed.

Lemma memory_writes l : forall k mem off,
  fold_left write_through (firstn k (writes off l)) mem = splice mem off (firstn k l).
Proof.
  induction l as [|b t IH]; intros k mem off.
  - unfold writes. cbn. destruct k; reflexivity.
  - destruct k as [|k]; [reflexivity|]. rewrite writes_cons. cbn [firstn fold_left write_through splice].
    apply IH.
Qed.

Lemma torn_memory s mem off l o1 o2 : o1 ++ o2 = toggle_on s ++ writes off l ++ toggle_off s ->
  exists k, memory_after mem o1 = splice mem off (firstn k l).
Proof.
  intros E. assert (E1 : o1 = firstn (length o1) (o1 ++ o2)).
  { rewrite firstn_app, Nat.sub_diag, firstn_all. cbn. rewrite app_nil_r. reflexivity. }
  rewrite E in E1. unfold memory_after. rewrite E1. clear E E1.
  set (n := length o1). clearbody n. rewrite !firstn_app, !fold_left_app.
  rewrite fold_toggle_on, fold_toggle_off, memory_writes.
  eexists. reflexivity.
Qed.

Lemma torn_ok s off l k : sram_ok s -> Forall is_byte l ->
  sram_ok (restarted s (splice (sr_mem s) off (firstn k l))).
Proof.
  intros (Hm & Hb) Hl. split; cbn [restarted sr_mem].
  - rewrite splice_length. exact Hm.
  - apply splice_bytes; [assumption|]. rewrite <- (firstn_skipn k l) in Hl. apply Forall_app in Hl. tauto.
Qed.

(** The bytes an operation writes. *)
Definition op_writes (op : rop) : list Z := match op with RSave _ p => slot_bytes p | RClear _ => [0; 0] end.
Lemma op_writes_ok op : rop_ok op -> Forall is_byte (op_writes op) /\ (length (op_writes op) <= 36)%nat.
Proof.
  destruct op as [n p|n]; cbn [rop_ok op_writes]; intros H.
  - destruct (slot_bytes_ok p) as (A & B); [tauto|]. split; [exact B|lia].
  - split; [repeat constructor; unfold is_byte; lia|cbn; lia].
Qed.

Lemma step_torn s op s' o o1 o2 : sram_ok s -> sr_present s = true -> rop_ok op ->
  sram_step op s = Done tt s' o -> o = o1 ++ o2 ->
  exists k, memory_after (sr_mem s) o1
            = splice (sr_mem s) (32 + 36 * op_program op) (firstn k (op_writes op)).
Proof.
  intros Hs Hp Ho E Eo.
  assert (Q : o = toggle_on s ++ writes (32 + 36 * op_program op) (op_writes op) ++ toggle_off s).
  { destruct op as [n p|n]; cbn [sram_step rop_ok op_program op_writes] in *.
    - rewrite save_eq in E by tauto. congruence.
    - rewrite clear_eq in E by tauto. congruence. }
  rewrite Eo in Q. apply (torn_memory s (sr_mem s) _ _ o1 o2 Q).
Qed.

Lemma c21_others s op s' o o1 o2 n : sram_ok s -> sr_present s = true -> rop_ok op ->
  sram_step op s = Done tt s' o -> o = o1 ++ o2 -> is_program n -> n <> op_program op ->
  forall r, loads s n r -> loads (restarted s (memory_after (sr_mem s) o1)) n r.
Proof.
  intros Hs Hp Ho E Eo Hn Hne r Hr.
  destruct (step_torn s op s' o o1 o2 Hs Hp Ho E Eo) as (k & ->).
  destruct (op_writes_ok op Ho) as (HB & HL).
  assert (Hop : is_program (op_program op)) by (destruct op; cbn in *; tauto).
  apply loads_iff in Hr; [|assumption|assumption|assumption].
  apply loads_iff; [apply torn_ok; assumption|exact Hp|assumption|].
  rewrite Hr. f_equal. symmetry.
  apply (slot_at_splice_other s _ (op_program op) n (firstn k (op_writes op)));
    [assumption|assumption|assumption|auto|rewrite firstn_length; lia|reflexivity].
Qed.

(** Slot image after a partial write of [l]. *)
Lemma slot_torn s n l k : sram_ok s -> is_program n -> length l = 36%nat -> (k <= 36)%nat ->
  slot_at (restarted s (splice (sr_mem s) (32 + 36 * n) (firstn k l))) n
  = firstn k l ++ skipn k (slot_at s n).
Proof.
  intros Hs Hn Hl Hk. assert (Hm := proj1 Hs). assert (L := slot_at_length s n Hs Hn).
  assert (Lf : length (firstn k l) = k) by (rewrite firstn_length; lia).
  apply (slot_at_ext s); [assumption|cbn [restarted sr_mem]; apply splice_length|assumption| |].
  - rewrite app_length, Lf, skipn_length. lia.
  - intros i Hi. cbn [restarted sr_mem]. unfold is_program in Hn. rewrite splice_get by lia. rewrite Lf.
    destruct ((32 + 36 * n <=? 32 + 36 * n + i) && (32 + 36 * n + i <? 32 + 36 * n + Z.of_nat k)) eqn:Q.
    + rewrite zget_app1 by lia. f_equal. lia.
    + rewrite zget_app2 by lia. rewrite Lf.
      rewrite <- slot_at_get by (assumption || unfold is_program; lia).
      unfold zget. replace (i <? 0) with false by lia.
      replace (i - Z.of_nat k <? 0) with false by lia.
      assert (NS : forall k (l : list Z) a, nth_error (skipn k l) a = nth_error l (k + a)).
      { clear. induction k; intros [|y l] a; cbn; auto. destruct a; reflexivity. }
      rewrite NS. f_equal. lia.
Qed.

Lemma c21_clear s n s' o o1 o2 : sram_ok s -> sr_present s = true -> is_program n ->
  sram_clear_preset n s = Done tt s' o -> o = o1 ++ o2 ->
  forall r, loads s n r ->
    loads (restarted s (memory_after (sr_mem s) o1)) n r \/ loads (restarted s (memory_after (sr_mem s) o1)) n None.
Proof.
  intros Hs Hp Hn E Eo r Hr.
  destruct (step_torn s (RClear n) s' o o1 o2 Hs Hp Hn E Eo) as (k & ->).
  cbn [op_program op_writes]. assert (Hm := proj1 Hs).
  assert (B2 : Forall is_byte [0; 0]) by (repeat constructor; unfold is_byte; lia).
  assert (Ok := torn_ok s (32 + 36 * n) [0; 0] k Hs B2).
  destruct k as [|k].
  - left. cbn [firstn splice] in *. apply loads_iff in Hr; [|assumption|assumption|assumption].
    apply loads_iff; [assumption|exact Hp|assumption|exact Hr].
  - right. apply loads_iff; [assumption|exact Hp|assumption|]. symmetry.
    apply zero_head; [assumption|assumption|]. cbn [restarted sr_mem firstn].
    unfold is_program in Hn. rewrite splice_get.
    + replace ((32 + 36 * n <=? 32 + 36 * n) && (32 + 36 * n <? 32 + 36 * n + Z.of_nat (length (0 :: firstn k [0])))) with true
        by (cbn [length]; lia).
      rewrite Z.sub_diag. reflexivity.
    + lia.
    + cbn [length]. rewrite firstn_length. cbn [length]. lia.
Qed.

(** ** C21: a torn save *)
Definition mask (j : nat) (l : list bool) : list bool := firstn j l ++ repeat false (length l - j).
Lemma mask_app j a b : mask j (a ++ b) = mask j a ++ mask (j - length a) b.
Proof.
  unfold mask. rewrite firstn_app, app_length.
  destruct (le_lt_dec j (length a)) as [H|H].
  - replace (j - length a)%nat with 0%nat by lia. cbn [firstn]. rewrite app_nil_r, Nat.sub_0_r.
    cbn [app]. rewrite <- app_assoc, <- repeat_app. do 2 f_equal. lia.
  - rewrite (firstn_all2 a) by lia. replace (length a - j)%nat with 0%nat by lia. cbn [repeat].
    rewrite app_nil_r, <- app_assoc. do 3 f_equal. lia.
Qed.
Lemma mask_false j n : mask j (repeat false n) = repeat false n.
Proof.
  unfold mask. revert j; induction n as [|n IH]; intros [|j]; cbn [repeat firstn length app Nat.sub]; auto.
  - rewrite repeat_length. reflexivity.
  - f_equal. apply IH.
Qed.
Lemma mask_length j l : length (mask j l) = length l.
Proof. unfold mask. rewrite app_length, firstn_length, repeat_length. lia. Qed.

Lemma mask_burst j e : burst16 e -> mask j e = repeat false (length e) \/ burst16 (mask j e).
Proof.
  intros (a & w & b & -> & Hw).
  destruct (le_lt_dec j a) as [H|H].
  - left. rewrite !mask_app, mask_false, repeat_length. replace (j - a)%nat with 0%nat by lia.
    unfold mask at 1. cbn [firstn app]. rewrite app_length, repeat_length, repeat_app. rewrite Nat.sub_0_r. reflexivity.
  - right. rewrite !mask_app, mask_false, repeat_length.
    change (true :: w ++ repeat false b) with ([true] ++ (w ++ repeat false b)).
    rewrite !mask_app, mask_false. cbn [length].
    replace (mask (j - a) [true]) with [true].
    + exists a, (mask (j - a - 1) w), b. split; [reflexivity|]. rewrite mask_length. exact Hw.
    + destruct (j - a)%nat as [|[|k]] eqn:E; [lia|reflexivity|reflexivity].
Qed.

Lemma xor_bytes_self l : xor_bytes l l = repeat 0 (length l).
Proof. induction l; cbn; [reflexivity|]. rewrite Z.lxor_nilpotent, IHl. reflexivity. Qed.
Lemma xor_bytes_app a1 : forall b1 a2 b2, length a1 = length b1 ->
  xor_bytes (a1 ++ a2) (b1 ++ b2) = xor_bytes a1 b1 ++ xor_bytes a2 b2.
Proof. induction a1; intros [|y b1] a2 b2 H; cbn in *; try discriminate; auto. rewrite IHa1 by lia. reflexivity. Qed.
Lemma xor_bytes_firstn k a : forall b, xor_bytes (firstn k a) (firstn k b) = firstn k (xor_bytes a b).
Proof.
  revert a; induction k as [|k IH]; intros a b; [reflexivity|].
  destruct a, b; cbn [firstn xor_bytes]; try reflexivity. rewrite IH. reflexivity.
Qed.
Lemma msg_bits_app a b : msg_bits (a ++ b) = msg_bits a ++ msg_bits b.
Proof. apply flat_map_app. Qed.
Lemma msg_bits_firstn k : forall l, msg_bits (firstn k l) = firstn (8 * k) (msg_bits l).
Proof.
  induction k as [|k IH]; intros [|x l]; try reflexivity.
  - cbn [firstn]. unfold msg_bits in *. cbn [flat_map]. rewrite IH.
    replace (8 * S k)%nat with (8 + 8 * k)%nat by lia.
    change 8%nat with (length (byte_bits x)) at 2. rewrite firstn_app_2. reflexivity.
Qed.
Lemma msg_bits_zero n : msg_bits (repeat 0 n) = repeat false (8 * n).
Proof.
  induction n; [reflexivity|]. replace (8 * S n)%nat with (8 + 8 * n)%nat by lia.
  rewrite repeat_app, <- IHn. reflexivity.
Qed.
Lemma msg_bits_inj a : forall b, bytes a -> bytes b -> length a = length b -> msg_bits a = msg_bits b -> a = b.
Proof.
  induction a as [|x a IH]; intros [|y b] Ha Hb Hl E; cbn in Hl; try discriminate; auto.
  inversion Ha; inversion Hb; subst. unfold msg_bits in *. cbn [flat_map] in E.
  assert (E1 : byte_bits x = byte_bits y) by (unfold byte_bits in *; cbn [map app] in E |- *; congruence).
  rewrite E1 in E. apply app_inv_head in E. f_equal; [|apply IH; auto].
  rewrite (byte_bits_to_bits x), (byte_bits_to_bits y) in E1. apply (f_equal (of_bits 0)) in E1. rewrite !of_to_bits in E1.
  change (2 ^ Z.of_nat 8) with 256 in E1. rewrite !Z.mod_small in E1 by assumption. exact E1.
Qed.

(** A slot that is not the checksummed one is empty. *)
Lemma slot_value_wrong body a b : Forall is_byte body -> length body = 34%nat ->
  a * 256 + b <> crc_calc_crc16 body -> slot_value (body ++ [a; b]) = None.
Proof.
  intros Hb Hl H. unfold slot_value.
  rewrite (firstn_exact 34 body [a; b] Hl), (skipn_exact 34 body [a; b] Hl).
  destruct (body ++ [a; b]) as [|hi [|lo t]]; try reflexivity.
  destruct (negb (Z.lor _ lo =? 0x9E1D)); [reflexivity|].
  replace (a * 256 + b =? crc_calc_crc16 body) with false by lia. reflexivity.
Qed.

(** Two bodies that differ by a burst: every mixture of them is the old slot,
    the new one, or invalid. *)
Lemma torn_mix bo bn k : Forall is_byte bo -> Forall is_byte bn -> length bo = 34%nat -> length bn = 34%nat ->
  burst16 (msg_bits (xor_bytes bo bn)) -> (k <= 36)%nat ->
  let so := bo ++ [crc_calc_crc16 bo / 256; crc_calc_crc16 bo mod 256] in
  let sn := bn ++ [crc_calc_crc16 bn / 256; crc_calc_crc16 bn mod 256] in
  let m := firstn k sn ++ skipn k so in
  m = so \/ m = sn \/ slot_value m = None.
Proof.
  intros Ho Hn Lo Ln Hb Hk so sn m.
  assert (Ro := crc_range bo Ho). assert (Rn := crc_range bn Hn).
  destruct (le_lt_dec k 34) as [H34|H34].
  - set (mb := firstn k bn ++ skipn k bo).
    assert (Em : m = mb ++ [crc_calc_crc16 bo / 256; crc_calc_crc16 bo mod 256]).
    { unfold m, mb, sn, so. rewrite firstn_app, skipn_app.
      replace (k - length bn)%nat with 0%nat by lia. replace (k - length bo)%nat with 0%nat by lia.
      cbn [firstn skipn]. rewrite app_nil_r, <- app_assoc. reflexivity. }
    assert (Lm : length mb = 34%nat).
    { unfold mb. rewrite app_length, firstn_length, skipn_length. lia. }
    assert (Bm : Forall is_byte mb).
    { unfold mb. apply Forall_app. split.
      - rewrite <- (firstn_skipn k bn) in Hn. apply Forall_app in Hn. tauto.
      - rewrite <- (firstn_skipn k bo) in Ho. apply Forall_app in Ho. tauto. }
    assert (Ex : msg_bits (xor_bytes bo mb) = mask (8 * k) (msg_bits (xor_bytes bo bn))).
    { unfold mb. rewrite <- (firstn_skipn k bo) at 1.
      rewrite xor_bytes_app by (rewrite !firstn_length; lia).
      rewrite xor_bytes_firstn, xor_bytes_self, msg_bits_app, msg_bits_firstn, msg_bits_zero.
      unfold mask. f_equal. f_equal. rewrite msg_bits_length, xor_bytes_length, skipn_length by lia. lia. }
    destruct (mask_burst (8 * k) _ Hb) as [Hz|Hbu].
    + left. rewrite Em. unfold so. f_equal.
      rewrite Hz in Ex. rewrite msg_bits_length, xor_bytes_length in Ex by lia.
      rewrite <- msg_bits_zero in Ex. apply msg_bits_inj in Ex;
        [|apply bytes_xor; assumption| |rewrite xor_bytes_length, repeat_length; lia].
      2:{ apply Forall_forall. intros x Hx. apply repeat_spec in Hx. subst. lia. }
      assert (Q : xor_bytes bo (xor_bytes bo mb) = xor_bytes bo (repeat 0 (length bo))) by (f_equal; exact Ex).
      assert (X : forall l e, length l = length e -> xor_bytes l (xor_bytes l e) = e).
      { clear. induction l as [|x l IH]; intros [|y e] H; cbn in *; try discriminate; auto.
        rewrite <- Z.lxor_assoc, Z.lxor_nilpotent, Z.lxor_0_l. f_equal. apply IH. lia. }
      rewrite X in Q by lia. rewrite Q.
      clear. induction bo; cbn; [reflexivity|]. rewrite Z.lxor_0_r, IHbo. reflexivity.
    + right. right. rewrite Em. apply slot_value_wrong; [assumption|assumption|].
      intros E. replace (crc_calc_crc16 bo / 256 * 256 + crc_calc_crc16 bo mod 256) with (crc_calc_crc16 bo) in E by lia.
      assert (D := crc_difference bo mb Ho Bm ltac:(lia)). rewrite E, Z.lxor_nilpotent in D.
      rewrite crc_fold_spec in D; [|apply bytes_xor; assumption|lia].
      rewrite Ex in D. apply (burst_nonzero _ Hbu). symmetry. exact D.
  - assert (Em : m = bn ++ firstn (k - 34) [crc_calc_crc16 bn / 256; crc_calc_crc16 bn mod 256]
                     ++ skipn (k - 34) [crc_calc_crc16 bo / 256; crc_calc_crc16 bo mod 256]).
    { unfold m, sn, so. rewrite firstn_app, skipn_app, Ln, Lo, (firstn_all2 bn), (skipn_all2 bo) by lia.
      cbn [app]. rewrite <- app_assoc. reflexivity. }
    destruct (k - 34)%nat as [|[|[|]]] eqn:Ek; try lia.
    + cbn [firstn skipn app] in Em.
      destruct (Z.eq_dec (crc_calc_crc16 bo mod 256) (crc_calc_crc16 bn mod 256)) as [Eq|Nq].
      * right. left. rewrite Em, Eq. reflexivity.
      * right. right. rewrite Em. apply slot_value_wrong; [assumption|assumption|]. lia.
    + cbn [firstn skipn app] in Em. right. left. exact Em.
Qed.

Lemma c21_save_burst s n p q s' o o1 o2 : sram_ok s -> sr_present s = true -> is_program n ->
  preset_ok p -> preset_ok q -> slot_at s n = slot_bytes p ->
  burst16 (msg_bits (xor_bytes (slot_body p) (slot_body q))) ->
  sram_save_preset n q s = Done tt s' o -> o = o1 ++ o2 ->
  exists r, loads (restarted s (memory_after (sr_mem s) o1)) n r /\ (r = Some p \/ r = Some q \/ r = None).
Proof.
  intros Hs Hp Hn Hpo Hqo Hsl Hb E Eo.
  destruct (step_torn s (RSave n q) s' o o1 o2 Hs Hp (conj Hn Hqo) E Eo) as (k & ->).
  cbn [op_program op_writes]. destruct (slot_bytes_ok q Hqo) as (Lq & Bq).
  assert (Ok := torn_ok s (32 + 36 * n) (slot_bytes q) k Hs Bq).
  eexists. split; [apply loads_iff; [assumption|exact Hp|assumption|reflexivity]|].
  assert (Ek : exists k', (k' <= 36)%nat /\ firstn k (slot_bytes q) = firstn k' (slot_bytes q)).
  { destruct (le_lt_dec k 36); [exists k; auto|]. exists 36%nat. split; [lia|].
    rewrite !firstn_all2 by lia. reflexivity. }
  destruct Ek as (k' & Hk' & ->). rewrite slot_torn by assumption. rewrite Hsl.
  destruct (slot_body_ok p Hpo) as (Lp & Bp). destruct (slot_body_ok q Hqo) as (Lq' & Bq').
  destruct (torn_mix (slot_body p) (slot_body q) k' Bp Bq' Lp Lq' Hb Hk') as [Q|[Q|Q]].
  - left. cbv zeta in Q. unfold slot_bytes. cbv zeta. rewrite Q. apply (slot_value_saved p Hpo).
  - right. left. cbv zeta in Q. unfold slot_bytes. cbv zeta. rewrite Q. apply (slot_value_saved q Hqo).
  - right. right. exact Q.
Qed.

(** Changing one parameter is a burst. *)
Lemma xor_bits_self l : xor_bits l l = repeat false (length l).
Proof. induction l as [|[|] l IH]; cbn; [reflexivity| |]; rewrite IH; reflexivity. Qed.

Lemma burst_middle a x y b : length x = length y -> (length x <= 16)%nat -> x <> y ->
  burst16 (xor_bits (a ++ x ++ b) (a ++ y ++ b)).
Proof.
  intros Hl H16 Hne. rewrite !xor_bits_app by auto. rewrite !xor_bits_self.
  assert (Q : exists c w, xor_bits x y = repeat false c ++ true :: w).
  { clear H16. revert y Hl Hne. induction x as [|u x IH]; intros [|v y] Hl Hne; cbn in Hl; try discriminate.
    - congruence.
    - cbn [xor_bits]. destruct (xorb u v) eqn:E.
      + exists 0%nat, (xor_bits x y). reflexivity.
      + destruct (IH y) as (c & w & ->); [lia|intros ->; apply Hne; f_equal; destruct u, v; auto; discriminate|].
        exists (S c), w. reflexivity. }
  destruct Q as (c & w & E).
  assert (L : length (xor_bits x y) = length x).
  { clear - Hl. revert y Hl. induction x; intros [|v y] Hl; cbn in *; try discriminate; auto. }
  rewrite E in L |- *. rewrite app_length, repeat_length in L. cbn [length] in L.
  exists (length a + c)%nat, w, (length b). split; [|lia].
  rewrite repeat_app, <- !app_assoc. reflexivity.
Qed.

Lemma field_middle ws : forall a x y b, Forall (fun w => (w <= 16)%nat) ws ->
  length (a ++ x :: b) = length ws -> x <> y ->
  Forall (fun f => fits (fst f) (snd f)) (combine ws (a ++ x :: b)) ->
  Forall (fun f => fits (fst f) (snd f)) (combine ws (a ++ y :: b)) ->
  exists p u v q, put_fields (combine ws (a ++ x :: b)) = p ++ u ++ q /\
    put_fields (combine ws (a ++ y :: b)) = p ++ v ++ q /\
    length u = length v /\ (length u <= 16)%nat /\ u <> v.
Proof.
  induction ws as [|w ws IH]; intros [|c a] x y b Hw Hl Hne H1 H2; cbn [app length] in Hl; try discriminate.
  - cbn [app combine] in *. inversion Hw; subst. inversion H1 as [|? ? F1 _]; subst. inversion H2 as [|? ? F2 _]; subst.
    cbn [fst snd] in *. unfold put_fields. cbn [flat_map fst snd].
    exists [], (to_bits w x), (to_bits w y), (flat_map (fun f => to_bits (fst f) (snd f)) (combine ws b)).
    rewrite !to_bits_length. repeat split; auto. intros E. apply (f_equal (of_bits 0)) in E.
    rewrite !of_to_bits in E. rewrite !Z.mod_small in E by assumption. congruence.
  - cbn [app combine] in *. inversion Hw; subst. inversion H1; subst. inversion H2; subst.
    destruct (IH a x y b) as (p & u & v & q & E1 & E2 & R); auto.
    unfold put_fields in *. cbn [flat_map fst snd]. rewrite E1, E2.
    exists (to_bits w c ++ p), u, v, q. rewrite <- !app_assoc. auto.
Qed.

Lemma msg_bits_from l : msg_bits l = from_bytes l.
Proof. reflexivity. Qed.

Lemma slot_body_bits p : msg_bits (slot_body p)
  = msg_bits [0x9E; 0x1D; 1] ++ from_bytes (head_bytes p) ++ from_bytes (flat_map op_bytes (p_ops p))
    ++ msg_bits [0; 0; 0; 0; 0].
Proof.
  unfold slot_body, preset_bytes. rewrite !msg_bits_app. rewrite <- !app_assoc. reflexivity.
Qed.

Lemma head_fits p : preset_ok p -> Forall (fun f => fits (fst f) (snd f)) (combine HEAD_WIDTHS (head_values p)).
Proof.
  intros (H1 & H2 & H3 & H4 & _). unfold HEAD_WIDTHS, head_values. cbn [combine].
  repeat apply Forall_cons; try apply Forall_nil; unfold fits; cbn [fst snd]; cbn; lia.
Qed.
Lemma op_fits o : op_ok o -> Forall (fun f => fits (fst f) (snd f)) (combine OP_WIDTHS (op_values o)).
Proof.
  intros H. unfold op_ok in H. unfold OP_WIDTHS, op_values. cbn [combine].
  repeat apply Forall_cons; try apply Forall_nil; unfold fits; cbn [fst snd]; cbn; lia.
Qed.

Lemma one_parameter_burst p q : preset_ok p -> preset_ok q -> one_parameter_differs p q ->
  burst16 (msg_bits (xor_bytes (slot_body p) (slot_body q))).
Proof.
  intros Hp Hq H. destruct (slot_body_ok p Hp) as (Lp & _). destruct (slot_body_ok q Hq) as (Lq & _).
  rewrite msg_bits_xor by lia. rewrite !slot_body_bits.
  assert (W1 : Forall (fun w => (w <= 16)%nat) HEAD_WIDTHS) by (repeat constructor; lia).
  assert (W2 : Forall (fun w => (w <= 16)%nat) OP_WIDTHS) by (repeat constructor; lia).
  destruct H as [((a & x & y & b & E1 & E2 & Hne) & Eo)|(Eh & a & o & o' & b & E1 & E2 & (c & x & y & d & F1 & F2 & Hne))].
  - destruct (head_bytes_ok p) as (_ & _ & ->). destruct (head_bytes_ok q) as (_ & _ & ->). rewrite Eo.
    assert (P := head_fits p Hp). assert (Q := head_fits q Hq).
    change [p_alg p; p_fb p; p_ams p; p_fms p] with (head_values p).
    change [p_alg q; p_fb q; p_ams q; p_fms q] with (head_values q).
    assert (Ll : length (head_values p) = 4%nat) by reflexivity.
    rewrite E1 in *. rewrite E2 in *.
    destruct (field_middle HEAD_WIDTHS a x y b W1 Ll Hne P Q) as (r & u & v & t & -> & -> & Hl & H16 & Huv).
    set (m := msg_bits [0x9E; 0x1D; 1]). set (z := msg_bits [0; 0; 0; 0; 0]). clearbody m z.
    set (w := from_bytes _). clearbody w.
    replace (m ++ ((r ++ u ++ t) ++ repeat false 5) ++ w ++ z) with ((m ++ r) ++ u ++ (t ++ repeat false 5 ++ w ++ z))
      by (rewrite <- !app_assoc; reflexivity).
    replace (m ++ ((r ++ v ++ t) ++ repeat false 5) ++ w ++ z) with ((m ++ r) ++ v ++ (t ++ repeat false 5 ++ w ++ z))
      by (rewrite <- !app_assoc; reflexivity).
    apply burst_middle; assumption.
  - destruct (head_bytes_ok p) as (_ & _ & ->). destruct (head_bytes_ok q) as (_ & _ & ->).
    change [p_alg p; p_fb p; p_ams p; p_fms p] with (head_values p).
    change [p_alg q; p_fb q; p_ams q; p_fms q] with (head_values q). rewrite Eh.
    destruct Hp as (_ & _ & _ & _ & _ & Op). destruct Hq as (_ & _ & _ & _ & _ & Oq).
    rewrite E1 in *. rewrite E2 in *.
    apply Forall_app in Op as (_ & Op). inversion Op as [|? ? Oo _]; subst.
    apply Forall_app in Oq as (_ & Oq). inversion Oq as [|? ? Oo' _]; subst.
    assert (P := op_fits o Oo). assert (Q := op_fits o' Oo').
    assert (Ll : length (op_values o) = 11%nat) by reflexivity.
    rewrite !flat_map_app. cbn [flat_map]. rewrite !from_bytes_app.
    destruct (op_bytes_ok o) as (_ & _ & ->). destruct (op_bytes_ok o') as (_ & _ & ->).
    rewrite F1 in *. rewrite F2 in *.
    destruct (field_middle OP_WIDTHS c x y d W2 Ll Hne P Q) as (r & u & v & t & -> & -> & Hl & H16 & Huv).
    set (m := msg_bits [0x9E; 0x1D; 1]). set (z := msg_bits [0; 0; 0; 0; 0]). clearbody m z.
    set (h := put_fields _ ++ repeat false 5). clearbody h.
    set (A := from_bytes _). set (B := from_bytes _). clearbody A B.
    replace (m ++ h ++ (A ++ ((r ++ u ++ t) ++ repeat false 4) ++ B) ++ z)
      with ((m ++ h ++ A ++ r) ++ u ++ (t ++ repeat false 4 ++ B ++ z)) by (rewrite <- !app_assoc; reflexivity).
    replace (m ++ h ++ (A ++ ((r ++ v ++ t) ++ repeat false 4) ++ B) ++ z)
      with ((m ++ h ++ A ++ r) ++ v ++ (t ++ repeat false 4 ++ B ++ z)) by (rewrite <- !app_assoc; reflexivity).
    apply burst_middle; assumption.
Qed.

(** ** C21 refuted: the witness *)
Definition zero_op : operator := mkOp 0 0 0 0 0 0 0 0 0 0 0.
Definition torn_old : preset := mkPreset 0 0 0 0 [zero_op; zero_op; zero_op; zero_op].
Definition torn_new : preset :=
  mkPreset 0 0 0 0 [mkOp 8 4 1 0 4 0 0 0 0 0 0; zero_op; zero_op; mkOp 0 0 0 0 0 0 0 0 0 1 0].
Definition torn_mixed : preset :=
  mkPreset 0 0 0 0 [mkOp 8 4 1 0 4 0 0 0 0 0 0; zero_op; zero_op; zero_op].
Definition blank : sram := mkSram true (repeat 0 4640) false false.
Lemma blank_ok : sram_ok blank.
Proof.
  split; [cbn [blank sr_mem]; rewrite repeat_length; lia|]. apply Forall_forall. intros x Hx.
  apply repeat_spec in Hx. subst. unfold is_byte. lia.
Qed.
Ltac ok := unfold preset_ok, op_ok; cbn; repeat split; try lia; repeat constructor; cbn; lia.
Lemma torn_old_ok : preset_ok torn_old. Proof. ok. Qed.
Lemma torn_new_ok : preset_ok torn_new. Proof. ok. Qed.

Lemma torn_witness : let s := saved blank 5 torn_old in
  exists s' o o1 o2, sram_save_preset 5 torn_new s = Done tt s' o /\ o = o1 ++ o2 /\
    loads s 5 (Some torn_old) /\ loads (restarted s (memory_after (sr_mem s) o1)) 5 (Some torn_mixed).
Proof.
  intros s. assert (Hn : is_program 5) by (unfold is_program; lia).
  assert (Ok : sram_ok s) by (apply saved_ok; [apply blank_ok|apply torn_old_ok]).
  assert (Sl : slot_at s 5 = slot_bytes torn_old)
    by (apply slot_at_saved; [apply blank_ok|exact Hn|apply torn_old_ok]).
  exists (saved s 5 torn_new).
  exists (toggle_on s ++ writes (32 + 36 * 5) (slot_bytes torn_new) ++ toggle_off s).
  exists (toggle_on s ++ firstn 20 (writes (32 + 36 * 5) (slot_bytes torn_new))).
  exists (skipn 20 (writes (32 + 36 * 5) (slot_bytes torn_new)) ++ toggle_off s).
  split; [apply save_eq; [exact Ok|reflexivity|exact Hn|apply torn_new_ok]|].
  split; [rewrite <- app_assoc, (app_assoc (firstn 20 _)), firstn_skipn; reflexivity|].
  split.
  - apply loads_iff; [exact Ok|reflexivity|exact Hn|]. rewrite Sl.
    symmetry. apply slot_value_saved, torn_old_ok.
  - assert (E : memory_after (sr_mem s) (toggle_on s ++ firstn 20 (writes (32 + 36 * 5) (slot_bytes torn_new)))
              = splice (sr_mem s) (32 + 36 * 5) (firstn 20 (slot_bytes torn_new))).
    { unfold memory_after. rewrite fold_left_app.
      rewrite <- (firstn_all (toggle_on s)), fold_toggle_on. apply memory_writes. }
    rewrite E. destruct (slot_bytes_ok _ torn_new_ok) as (L & B).
    apply loads_iff; [apply torn_ok; [exact Ok|exact B]|reflexivity|exact Hn|].
    rewrite slot_torn by (assumption || lia). rewrite Sl. vm_compute. reflexivity.
Qed.

Lemma demo_preset_ok : preset_ok (demo_preset 4). Proof. ok. Qed.
Lemma blank_slot n : is_program n -> slot_at blank n = repeat 0 36.
Proof.
  intros Hn. unfold is_program in Hn. unfold slot_at. cbn [blank sr_mem].
  assert (F : forall k m (x : Z), (k <= m)%nat -> firstn k (repeat x m) = repeat x k).
  { induction k; intros [|m] x H; cbn; try lia; auto. rewrite IHk by lia. reflexivity. }
  assert (K : forall k m (x : Z), (k <= m)%nat -> skipn k (repeat x m) = repeat x (m - k)).
  { induction k; intros [|m] x H; cbn [skipn repeat Nat.sub]; try lia; auto. apply IHk; lia. }
  rewrite K by lia. apply F. lia.
Qed.
Lemma blank_loads n : is_program n -> loads blank n None.
Proof.
  intros Hn. apply loads_iff; [exact blank_ok|reflexivity|exact Hn|]. rewrite blank_slot by exact Hn. reflexivity.
Qed.

Lemma c19_example :
  let s := saved blank 5 torn_old in
  sram_ok s /\ loads s 5 (Some torn_old) /\
  burst16 (msg_bits (repeat 0 10 ++ [0x80; 0x01] ++ repeat 0 24)).
Proof.
  intros s. assert (Ok : sram_ok s) by (apply saved_ok; [apply blank_ok|apply torn_old_ok]).
  assert (Hn : is_program 5) by (unfold is_program; lia).
  split; [exact Ok|]. split.
  - apply loads_iff; [exact Ok|reflexivity|exact Hn|].
    unfold s. rewrite slot_at_saved; [|apply blank_ok|exact Hn|apply torn_old_ok].
    symmetry. apply slot_value_saved, torn_old_ok.
  - exists 80%nat, (repeat false 14 ++ [true]), 192%nat. split; [reflexivity|cbn; lia].
Qed.

Lemma loads_fun s n r1 r2 : loads s n r1 -> loads s n r2 -> r1 = r2.
Proof. intros (l1 & s1 & o1 & E1 & H1) (l2 & s2 & o2 & E2 & H2). rewrite E1 in E2. injection E2 as -> -> ->. congruence. Qed.

Lemma c21_refuted :
  ~ (forall s op s' o o1 o2 old,
       sram_ok s -> sr_present s = true -> rop_ok op -> sram_step op s = Done tt s' o -> o = o1 ++ o2 ->
       loads s (op_program op) old ->
       let cut := restarted s (memory_after (sr_mem s) o1) in
       loads cut (op_program op) old \/ loads cut (op_program op) None \/
       (exists p, op = RSave (op_program op) p /\ loads cut (op_program op) (Some p))).
Proof.
  intros H. destruct torn_witness as (s' & o & o1 & o2 & E & Eo & L1 & L2).
  assert (Ok : sram_ok (saved blank 5 torn_old)) by (apply saved_ok; [apply blank_ok|apply torn_old_ok]).
  assert (Hn : is_program 5) by (unfold is_program; lia).
  destruct (H (saved blank 5 torn_old) (RSave 5 torn_new) s' o o1 o2 (Some torn_old) Ok eq_refl
              (conj Hn torn_new_ok) E Eo L1) as [Q|[Q|(p & Ep & Q)]]; cbn [op_program] in *.
  - assert (X := loads_fun _ _ _ _ Q L2). discriminate.
  - assert (X := loads_fun _ _ _ _ Q L2). discriminate.
  - injection Ep as <-. assert (X := loads_fun _ _ _ _ Q L2). discriminate.
Qed.

Lemma c21_edit s n p q s1 o1 s2 o2 oa ob :
  sram_ok s -> sr_present s = true -> is_program n -> preset_ok p -> preset_ok q ->
  one_parameter_differs p q ->
  sram_save_preset n p s = Done tt s1 o1 -> sram_save_preset n q s1 = Done tt s2 o2 -> o2 = oa ++ ob ->
  exists r, loads (restarted s1 (memory_after (sr_mem s1) oa)) n r /\
    (r = Some p \/ r = Some q \/ r = None).
Proof.
  intros Hs Hp Hn Hpo Hqo Hd E1 E2 Eo. rewrite save_eq in E1 by assumption. injection E1 as <- _.
  apply (c21_save_burst (saved s n p) n p q s2 o2 oa ob); auto.
  - apply saved_ok; assumption.
  - apply slot_at_saved; assumption.
  - apply one_parameter_burst; assumption.
Qed.

Lemma c21_example : preset_ok torn_mixed /\ preset_ok torn_new /\ one_parameter_differs torn_mixed torn_new.
Proof.
  split; [ok|]. split; [exact torn_new_ok|]. right. split; [reflexivity|].
  exists [mkOp 8 4 1 0 4 0 0 0 0 0 0; zero_op; zero_op], zero_op, (mkOp 0 0 0 0 0 0 0 0 0 1 0), [].
  split; [reflexivity|]. split; [reflexivity|].
  exists [0; 0; 0; 0; 0; 0; 0; 0; 0], 0, 1, [0]. split; [reflexivity|]. split; [reflexivity|]. lia.
Qed.
