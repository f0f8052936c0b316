From Verif Require Import Base BaseLemmas RingBufModel RingBufSpec.

Definition idx (t i n : Z) : Z := if t + i <? n then t + i else t + i - n.

(** [r] holds exactly the queue [q]. *)
Definition repr (b : list Z) (t h n : Z) (q : list Z) : Prop :=
  2 <= n <= 65535 /\ n <= Z.of_nat (length b) /\ 0 <= t < n /\ 0 <= h < n /\
  ((t <= h /\ Z.of_nat (length q) = h - t) \/ (h < t /\ Z.of_nat (length q) = h - t + n)) /\
  forall i x, zget q i = Some x -> zget b (idx t i n) = Some x.

Definition ring_repr (r : ring) (n : Z) (q : list Z) : Prop :=
  exists b, rb_buf r = Some b /\ rb_size r = n /\ repr b (rb_tail r) (rb_head r) n q.

Lemma rem_succ x n : 0 <= x < n -> n <= 65535 ->
  u16 (Z.rem (x + 1) n) = if x + 1 =? n then 0 else x + 1.
Proof.
  intros Hx Hn. unfold u16. destruct (Z.eqb_spec (x + 1) n) as [->|Hne].
  - rewrite Z.rem_same by lia. reflexivity.
  - rewrite Z.rem_small by lia. rewrite Z.mod_small by lia. reflexivity.
Qed.

Lemma repr_write b t h n q d :
  repr b t h n q -> Z.of_nat (length q) < n - 1 ->
  repr (zset b h d) t (if h + 1 =? n then 0 else h + 1) n (q ++ [d]).
Proof.
  intros (Hn & Hb & Ht & Hh & Hl & Hc) Hlt.
  repeat split; try lia.
  - rewrite zset_length; lia.
  - destruct (Z.eqb_spec (h + 1) n); lia.
  - destruct (Z.eqb_spec (h + 1) n); lia.
  - rewrite app_length, Nat2Z.inj_add; simpl length.
    destruct (Z.eqb_spec (h + 1) n); lia.
  - intros i x Hi.
    destruct (Z_lt_ge_dec i (Z.of_nat (length q))) as [Hlo|Hhi].
    + rewrite zget_app1 in Hi by lia.
      assert (Hr := zget_Some _ _ _ Hi).
      rewrite zget_zset_other; [apply Hc; assumption|].
      unfold idx. destruct (Z.ltb_spec (t + i) n); lia.
    + rewrite zget_app2 in Hi by lia.
      assert (Hr := zget_Some _ _ _ Hi). simpl in Hr.
      replace (i - Z.of_nat (length q)) with 0 in Hi by lia.
      unfold zget in Hi; simpl in Hi. injection Hi as <-.
      replace (idx t i n) with h.
      * apply zget_zset_same; lia.
      * unfold idx. destruct (Z.ltb_spec (t + i) n); lia.
Qed.

Lemma repr_read b t h n x q :
  repr b t h n (x :: q) -> repr b (if t + 1 =? n then 0 else t + 1) h n q.
Proof.
  intros (Hn & Hb & Ht & Hh & Hl & Hc).
  simpl length in Hl. rewrite Nat2Z.inj_succ in Hl.
  repeat split; try lia; try (destruct (Z.eqb_spec (t + 1) n); lia).
  - intros i y Hi. assert (Hr := zget_Some _ _ _ Hi).
    assert (Hi' : zget (x :: q) (i + 1) = Some y).
    { unfold zget in *. destruct (Z.ltb_spec i 0); [lia|].
      destruct (Z.ltb_spec (i + 1) 0); [lia|].
      replace (Z.to_nat (i + 1)) with (S (Z.to_nat i)) by lia. exact Hi. }
    apply Hc in Hi'. rewrite <- Hi'. f_equal. unfold idx.
    destruct (Z.eqb_spec (t + 1) n); destruct (Z.ltb_spec (t + (i + 1)) n);
      match goal with |- context [?a <? ?b] => destruct (Z.ltb_spec a b) end; lia.
Qed.

Lemma repr_head b t h n x q : repr b t h n (x :: q) -> zget b t = Some x.
Proof.
  intros (Hn & Hb & Ht & Hh & Hl & Hc).
  specialize (Hc 0 x eq_refl). rewrite <- Hc. f_equal.
  unfold idx. destruct (Z.ltb_spec (t + 0) n); lia.
Qed.

Lemma repr_empty b t h n q : repr b t h n q -> (t =? h) = match q with [] => true | _ => false end.
Proof.
  intros (Hn & Hb & Ht & Hh & Hl & Hc).
  destruct q; simpl length in Hl; rewrite ?Nat2Z.inj_succ in Hl;
    destruct (Z.eqb_spec t h); auto; lia.
Qed.

Lemma repr_full b t h n q : repr b t h n q ->
  ((if h + 1 =? n then 0 else h + 1) =? t) = negb (Nat.ltb (length q) (Z.to_nat (n - 1))).
Proof.
  intros (Hn & Hb & Ht & Hh & Hl & Hc).
  destruct (Z.eqb_spec (h + 1) n);
  match goal with |- context [?a =? ?b] => destruct (Z.eqb_spec a b) end;
  destruct (Nat.ltb_spec (length q) (Z.to_nat (n - 1)));
  simpl; auto; try lia.
Qed.

Lemma repr_len b t h n q : repr b t h n q -> (length q <= Z.to_nat (n - 1))%nat.
Proof.
  intros (Hn & Hb & Ht & Hh & Hl & Hc). lia.
Qed.

Lemma ring_step_refines r n q o :
  ring_repr r n q -> rop_wf o ->
  exists r', ring_step o r = Done (snd (fifo_step (Z.to_nat (n - 1)) q o)) r' [] /\
             ring_repr r' n (fst (fifo_step (Z.to_nat (n - 1)) q o)).
Proof.
  destruct r as [bo t h sz]. intros (b & Hb & Hsz & Hr) Hwf. simpl in *. subst bo sz.
  assert (Hn : 2 <= n <= 65535) by apply Hr.
  assert (Ht : 0 <= t < n) by apply Hr.
  assert (Hh : 0 <= h < n) by apply Hr.
  assert (Hlb : n <= Z.of_nat (length b)) by apply Hr.
  assert (E2 : (n <? 2) = false) by lia.
  destruct o; cbn [ring_step fifo_step].
  - unfold ring_buf_read, bind, get; cbn. rewrite E2.
    rewrite (repr_empty _ _ _ _ _ Hr). destruct q as [|x q]; cbn.
    + eexists; split; [reflexivity|]. exists b; auto.
    + unfold rd. rewrite (repr_head _ _ _ _ _ _ Hr); cbn.
      eexists; split; [reflexivity|]. exists b; cbn. split; [reflexivity|split; [reflexivity|]].
      rewrite rem_succ by lia. eapply repr_read; eauto.
  - unfold ring_buf_write, bind, get; cbn. rewrite E2.
    rewrite rem_succ by lia. rewrite (repr_full _ _ _ _ _ Hr).
    destruct (Nat.ltb_spec (length q) (Z.to_nat (n - 1))) as [Hlt|Hge]; cbn.
    + unfold rd. destruct (zget_in_range b h) as [y Hy]; [lia|]. rewrite Hy; cbn.
      eexists; split; [reflexivity|]. eexists; cbn. split; [reflexivity|split; [reflexivity|]].
      unfold u8. rewrite Z.mod_small by (cbn in Hwf; unfold is_byte in Hwf; lia).
      apply repr_write; [assumption|lia].
    + eexists; split; [reflexivity|]. exists b; auto.
  - unfold bind, gets, ring_buf_can_read; cbn. rewrite E2, (repr_empty _ _ _ _ _ Hr).
    eexists; split; [destruct q; reflexivity|]. exists b; auto.
  - unfold bind, gets, ring_buf_can_write; cbn. rewrite E2.
    rewrite rem_succ by lia. rewrite (repr_full _ _ _ _ _ Hr), negb_involutive.
    eexists; split; [reflexivity|]. exists b; auto.
  - unfold bind, gets, ring_buf_available; cbn. rewrite E2.
    assert (Hlen := repr_len _ _ _ _ _ Hr).
    destruct Hr as (Hn' & Hb' & Ht' & Hh' & Hl & Hc).
    eexists; split.
    + f_equal. f_equal. unfold u16.
      rewrite (Z.mod_small (n - 1)) by lia.
      destruct (Z.eqb_spec t h), (Z.ltb_spec t h); try lia;
        rewrite ?Z.mod_small; lia.
    + exists b; cbn. repeat split; auto; lia.
Qed.

Lemma ring_run_refines n ops : forall r q,
  ring_repr r n q -> Forall rop_wf ops ->
  exists r', ring_run ops r = Done (snd (fifo_run (Z.to_nat (n - 1)) q ops)) r' [] /\
             ring_repr r' n (fst (fifo_run (Z.to_nat (n - 1)) q ops)).
Proof.
  induction ops as [|o t IH]; intros r q Hr Hwf.
  - exists r; split; auto.
  - inversion Hwf as [|? ? Ho Ht]; subst.
    destruct (ring_step_refines r n q o Hr Ho) as (r1 & E1 & R1).
    cbn [ring_run fifo_run]. unfold bind. rewrite E1.
    destruct (fifo_step (Z.to_nat (n - 1)) q o) as [q1 x]; cbn [fst snd] in *.
    destruct (IH r1 q1 R1 Ht) as (r2 & E2 & R2). rewrite E2.
    destruct (fifo_run (Z.to_nat (n - 1)) q1 t) as [q2 xs]; cbn [fst snd] in *.
    exists r2; split; [reflexivity|assumption].
Qed.

Lemma ring_init_repr arr n :
  2 <= n <= 65535 -> n <= Z.of_nat (length arr) ->
  ring_repr (mkRing (Some arr) 0 0 n) n [].
Proof.
  intros Hn Ha. exists arr; cbn. split; [reflexivity|split; [reflexivity|]].
  assert (forall i x, zget (@nil Z) i = Some x -> zget arr (idx 0 i n) = Some x).
  { intros i x Hi. apply zget_Some in Hi. simpl in Hi. lia. }
  unfold repr; cbn [length]; intuition lia.
Qed.

Lemma ring_fifo_main arr n ops s0 :
  2 <= n <= 65535 -> n <= Z.of_nat (length arr) -> Forall rop_wf ops ->
  exists r', bind (ring_buf_init (Some arr) n) (fun _ => ring_run ops) s0
             = Done (snd (fifo_run (Z.to_nat (n - 1)) [] ops)) r' [].
Proof.
  intros Hn Ha Hwf. unfold bind at 1, ring_buf_init at 1. unfold bind at 1, get.
  destruct (n <? 2) eqn:E; [lia|]. cbn.
  destruct (ring_run_refines n ops _ _ (ring_init_repr arr n Hn Ha) Hwf) as (r' & E1 & _).
  exists r'. rewrite E1. reflexivity.
Qed.

(** The abstract queue delivers exactly what it accepted: the bytes of the OK
    reads are a prefix of the bytes of the OK writes. *)
Definition accepted (ops : list rop) (rs : list rres) : list Z :=
  flat_map (fun p => match p with (RWrite d, ResWrite RB_OK) => [d] | _ => [] end) (combine ops rs).
Definition delivered (rs : list rres) : list Z :=
  flat_map (fun r => match r with ResRead RB_OK (Some d) => [d] | _ => [] end) rs.

Lemma fifo_conservation cap ops : forall q,
  let (q', rs) := fifo_run cap q ops in
  q ++ accepted ops rs = delivered rs ++ q'.
Proof.
  induction ops as [|o t IH]; intros q; cbn [fifo_run].
  - cbn. rewrite app_nil_r; reflexivity.
  - destruct (fifo_step cap q o) as [q1 x] eqn:E.
    specialize (IH q1). destruct (fifo_run cap q1 t) as [q2 xs].
    unfold accepted, delivered in *. cbn [combine flat_map].
    destruct o; cbn in E.
    + destruct q as [|y q]; injection E as <- <-; cbn.
      * exact IH.
      * f_equal. exact IH.
    + destruct (Nat.ltb (length q) cap); injection E as <- <-; cbn.
      * rewrite <- IH, <- app_assoc; reflexivity.
      * exact IH.
    + injection E as <- <-; cbn; exact IH.
    + injection E as <- <-; cbn; exact IH.
    + injection E as <- <-; cbn; exact IH.
Qed.
