From Verif Require Import Base BaseLemmas LogModel LogSpec RingBufProofs.

Definition lrepr (s : logst) (q : list (Z * Z)) : Prop :=
  length (lg_slots s) = 10%nat /\ 0 <= lg_read s < 10 /\ 0 <= lg_write s < 10 /\
  lg_count s = Z.of_nat (length q) /\
  ((lg_read s <= lg_write s /\ lg_count s = lg_write s - lg_read s) \/
   (lg_write s < lg_read s /\ lg_count s = lg_write s - lg_read s + 10)) /\
  forall i x, zget q i = Some x -> zget (lg_slots s) (idx (lg_read s) i 10) = Some x.

Lemma zget_cons {A} (x : A) q i :
  zget (x :: q) i = if i =? 0 then Some x else zget q (i - 1).
Proof.
  unfold zget. destruct (Z.eqb_spec i 0) as [->|Hne]; [reflexivity|].
  destruct (Z.ltb_spec i 0); destruct (Z.ltb_spec (i - 1) 0); try lia; [reflexivity|].
  replace (Z.to_nat i) with (S (Z.to_nat (i - 1))) by lia. reflexivity.
Qed.

Lemma lrepr_init : lrepr log_init [].
Proof.
  unfold lrepr; cbn. repeat split; try lia. intros i x H. apply zget_Some in H; cbn in H; lia.
Qed.

Lemma lrepr_pop s x q : lrepr s (x :: q) -> lrepr (incrementReadHead s) q.
Proof.
  intros (Hl & Hr & Hw & Hc & Hd & Hx). cbn [length] in Hc.
  unfold incrementReadHead, lrepr, MAX_LOG_ENTRIES, u8, u16; cbn.
  rewrite !Z.mod_small by lia.
  assert (HX : forall i y, zget q i = Some y ->
     zget (lg_slots s) (idx (if lg_read s + 1 =? 10 then 0 else lg_read s + 1) i 10) = Some y).
  { intros i y Hi. assert (Hir := zget_Some _ _ _ Hi).
    specialize (Hx (i + 1) y). rewrite zget_cons in Hx.
    destruct (Z.eqb_spec (i + 1) 0); [lia|]. replace (i + 1 - 1) with i in Hx by lia.
    rewrite <- (Hx Hi). f_equal. unfold idx.
    destruct (Z.eqb_spec (lg_read s + 1) 10); destruct (Z.ltb_spec (lg_read s + (i + 1)) 10);
      match goal with |- context [?a <? ?b] => destruct (Z.ltb_spec a b) end; lia. }
  destruct (Z.eqb_spec (lg_read s + 1) 10); repeat split; auto; lia.
Qed.

Lemma lrepr_head s x q : lrepr s (x :: q) -> zget (lg_slots s) (lg_read s) = Some x.
Proof.
  intros (Hl & Hr & Hw & Hc & Hd & Hx). specialize (Hx 0 x eq_refl). rewrite <- Hx. f_equal.
  unfold idx. destruct (Z.ltb_spec (lg_read s + 0) 10); lia.
Qed.

Lemma u16_count x : 0 <= x < 65536 -> u16 x = x.
Proof. unfold u16; intros; apply Z.mod_small; lia. Qed.

Lemma lrepr_add s q l t :
  lrepr s q -> exists s', log_add l t s = Done tt s' [] /\ lrepr s' (drop_queue_add 9 q (l, t)).
Proof.
  intros H. assert (H0 := H). destruct H0 as (Hl & Hr & Hw & Hc & Hd & Hx).
  unfold log_add, bind, get, rd.
  destruct (zget_in_range (lg_slots s) (lg_write s)) as [y Hy]; [lia|]. rewrite Hy. cbn.
  eexists; split; [reflexivity|].
  set (w' := if u8 (lg_write s + 1) =? MAX_LOG_ENTRIES then 0 else u8 (lg_write s + 1)).
  assert (Hw' : w' = if lg_write s + 1 =? 10 then 0 else lg_write s + 1).
  { unfold w', u8, MAX_LOG_ENTRIES. rewrite Z.mod_small by lia. reflexivity. }
  assert (Hfull : (w' =? lg_read s) = negb (Nat.ltb (length q) 9)).
  { rewrite Hw'. destruct (Nat.ltb_spec (length q) 9); cbn;
      destruct (Z.eqb_spec (lg_write s + 1) 10); lia. }
  assert (Hcell : forall i, 0 <= i < Z.of_nat (length q) ->
            idx (lg_read s) i 10 <> lg_write s).
  { intros i Hi. unfold idx. destruct (Z.ltb_spec (lg_read s + i) 10); lia. }
  unfold drop_queue_add.
  unfold incrementWriteHead. fold w'. cbn [lg_read lg_slots lg_write lg_count].
  rewrite Hfull.
  destruct (Nat.ltb_spec (length q) 9) as [Hlt|Hge]; cbn [negb].
  - unfold lrepr; cbn. rewrite zset_length, app_length, Hw', u16_count by lia; cbn [length].
    assert (HX : forall i x, zget (q ++ [(l, t)]) i = Some x ->
       zget (zset (lg_slots s) (lg_write s) (l, t)) (idx (lg_read s) i 10) = Some x).
    { intros i x Hi. destruct (Z_lt_ge_dec i (Z.of_nat (length q))) as [Hlo|Hhi].
      - rewrite zget_app1 in Hi by lia. assert (Hir := zget_Some _ _ _ Hi).
        rewrite zget_zset_other; [auto|]. intros Habs; symmetry in Habs; revert Habs.
        apply Hcell; lia.
      - rewrite zget_app2 in Hi by lia. assert (Hir := zget_Some _ _ _ Hi). cbn in Hir.
        replace (i - Z.of_nat (length q)) with 0 in Hi by lia. injection Hi as <-.
        replace (idx (lg_read s) i 10) with (lg_write s);
          [apply zget_zset_same; lia|].
        unfold idx. destruct (Z.ltb_spec (lg_read s + i) 10); lia. }
    destruct (Z.eqb_spec (lg_write s + 1) 10); repeat split; auto; lia.
  - destruct q as [|x0 q]; [cbn in Hge; lia|]. cbn [tl length] in *.
    unfold lrepr, incrementReadHead; cbn.
    rewrite zset_length, app_length; cbn [length].
    rewrite (u16_count (lg_count s - 1)) by lia.
    rewrite u16_count by lia.
    replace (u8 (lg_read s + 1)) with (lg_read s + 1) by (unfold u8; rewrite Z.mod_small; lia).
    unfold MAX_LOG_ENTRIES. rewrite Hw'.
    set (r' := if lg_read s + 1 =? 10 then 0 else lg_read s + 1).
    assert (HX : forall i x, zget (q ++ [(l, t)]) i = Some x ->
       zget (zset (lg_slots s) (lg_write s) (l, t)) (idx r' i 10) = Some x).
    { intros i x Hi. destruct (Z_lt_ge_dec i (Z.of_nat (length q))) as [Hlo|Hhi].
      - rewrite zget_app1 in Hi by lia. assert (Hir := zget_Some _ _ _ Hi).
        assert (Hi' : zget (x0 :: q) (i + 1) = Some x).
        { rewrite zget_cons. destruct (Z.eqb_spec (i + 1) 0); [lia|].
          replace (i + 1 - 1) with i by lia. exact Hi. }
        assert (Hidx : idx r' i 10 = idx (lg_read s) (i + 1) 10).
        { unfold idx, r'. destruct (Z.eqb_spec (lg_read s + 1) 10);
            destruct (Z.ltb_spec (lg_read s + (i + 1)) 10);
            match goal with |- context [?a <? ?b] => destruct (Z.ltb_spec a b) end; lia. }
        rewrite Hidx, zget_zset_other; [auto|].
        intros Habs; symmetry in Habs; revert Habs. apply Hcell. lia.
      - rewrite zget_app2 in Hi by lia. assert (Hir := zget_Some _ _ _ Hi). cbn in Hir.
        replace (i - Z.of_nat (length q)) with 0 in Hi by lia. injection Hi as <-.
        replace (idx r' i 10) with (lg_write s);
          [apply zget_zset_same; lia|].
        unfold idx, r'. destruct (Z.eqb_spec (lg_read s + 1) 10);
          match goal with |- context [?a <? ?b] => destruct (Z.ltb_spec a b) end; lia. }
    unfold r' in *.
    destruct (Z.eqb_spec (lg_write s + 1) 10), (Z.eqb_spec (lg_read s + 1) 10); repeat split; auto; lia.
Qed.

Lemma log_run_refines ops : forall s q,
  lrepr s q ->
  exists s', log_run ops s = Done (snd (dq_run 9 q ops)) s' [] /\ lrepr s' (fst (dq_run 9 q ops)).
Proof.
  induction ops as [|o r IH]; intros s q H; cbn [log_run dq_run].
  - exists s; split; auto.
  - destruct o as [l t|]; cbn [log_step].
    + destruct (lrepr_add s q l t H) as (s1 & E1 & H1).
      destruct (IH s1 _ H1) as (s2 & E2 & H2).
      exists s2. unfold bind, ret. rewrite E1. cbn. rewrite E2. cbn. split; auto.
    + unfold bind, ret, log_dequeue, get. cbn.
      assert (Hc : lg_count s = Z.of_nat (length q)) by apply H. rewrite Hc.
      destruct q as [|x q]; cbn [length].
      * cbn. rewrite Z.eqb_refl. destruct (IH s [] H) as (s2 & E2 & H2). exists s2. cbn. rewrite E2.
        destruct (dq_run 9 [] r); cbn in *. split; auto.
      * destruct (Z.eqb_spec (Z.of_nat (S (length q))) 0); [lia|].
        unfold bind, rd. rewrite (lrepr_head _ _ _ H). cbn.
        destruct (IH _ _ (lrepr_pop _ _ _ H)) as (s2 & E2 & H2). exists s2.
        rewrite E2. destruct (dq_run 9 q r); cbn in *. split; auto.
Qed.
