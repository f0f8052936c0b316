From Verif Require Import Base BaseLemmas RingBufModel RingBufSpec RingBufProofs RingSpscModel RingSpscSpec.

Section Spsc.
Context (n : Z).

Definition pinv (b : list Z) (t h : Z) (q : list Z) (p : ppc) : Prop :=
  let succ := if h + 1 =? n then 0 else h + 1 in
  match p with
  | PIdle | PLoadHead _ => True
  | PLoadTail _ nh => nh = succ
  | PLoadHead2 _ nh => nh = succ /\ Z.of_nat (length q) < n - 1
  | PStoreBuf _ nh h' => nh = succ /\ Z.of_nat (length q) < n - 1 /\ h' = h
  | PStoreHead d nh => nh = succ /\ Z.of_nat (length q) < n - 1 /\ zget b h = Some d
  end.

(** [q] is the committed queue. In [CCmp2] with the head loaded first, the
    loaded value is an old head: if it differs from the tail the queue was and
    still is non-empty. *)
Definition cinv (b : list Z) (t h : Z) (q : list Z) (c : cpc) : Prop :=
  match c with
  | CIdle | CCmp1 _ _ => True
  | CCmp2 _ ord v => if ord then v = t else (v = t \/ q <> [])
  | CLoadTail => q <> []
  | CLoadBuf t' => q <> [] /\ t' = t
  | CLoadTail2 d => exists q', q = d :: q'
  | CStoreTail d t' => t' = t /\ exists q', q = d :: q'
  end.

Definition sinv (s : sys) (q : list Z) : Prop :=
  let sh := y_sh s in
  sh_size sh = n /\
  repr (sh_buf sh) (sh_tail sh) (sh_head sh) n q /\
  pinv (sh_buf sh) (sh_tail sh) (sh_head sh) q (y_p s) /\
  cinv (sh_buf sh) (sh_tail sh) (sh_head sh) q (y_c s).

Lemma repr_store b t h q d :
  repr b t h n q -> Z.of_nat (length q) < n - 1 -> repr (zset b h d) t h n q.
Proof.
  intros (Hn & Hb & Ht & Hh & Hl & Hc) Hlt.
  split; [assumption|]. split; [rewrite zset_length; assumption|].
  do 3 (split; [assumption|]).
  intros i x Hi. assert (Hr := zget_Some _ _ _ Hi).
  rewrite zget_zset_other; [apply Hc; assumption|].
  unfold idx. destruct (Z.ltb_spec (t + i) n); lia.
Qed.

Lemma repr_commit b t h q d :
  repr b t h n q -> Z.of_nat (length q) < n - 1 -> zget b h = Some d ->
  repr b t (if h + 1 =? n then 0 else h + 1) n (q ++ [d]).
Proof.
  intros Hr Hlt Hd. assert (H := repr_write b t h n q d Hr Hlt).
  rewrite zset_id in H; assumption.
Qed.

Lemma sys_step_inv s q l s' o :
  sinv s q -> sys_step s l = Some (s', o) ->
  exists q', sinv s' q' /\ q ++ sent o = received o ++ q' /\
    (forall d, In (ORetW d RB_FULL) o -> Z.of_nat (length q) = n - 1) /\
    (In (ORetQ true) o -> q <> []).
Proof.
  destruct s as [[b t h sz] p c]. unfold sinv; cbn. intros (-> & Hr & Hp & Hc) E.
  assert (Hn : 2 <= n <= 65535) by apply Hr.
  assert (Ht : 0 <= t < n) by apply Hr.
  assert (Hh : 0 <= h < n) by apply Hr.
  destruct l as [d| |qq oo|]; cbn in E.
  - destruct p; inversion E; subst; cbn. exists q; cbn. rewrite app_nil_r. intuition.
  - destruct p as [|d|d nh|d nh|d nh h'|d nh]; cbn in E; try discriminate.
    + inversion E; subst; cbn. exists q; cbn. rewrite app_nil_r, rem_succ by lia. intuition.
    + cbn in Hp. subst nh. rewrite (repr_full _ _ _ _ _ Hr) in E.
      assert (Hlen := repr_len _ _ _ _ _ Hr).
      destruct (Nat.ltb_spec (length q) (Z.to_nat (n - 1))); cbn in E; inversion E; subst; cbn;
        exists q; cbn; rewrite app_nil_r; intuition lia || (intuition discriminate).
    + inversion E; subst; cbn in *. exists q; cbn; rewrite app_nil_r; intuition.
    + cbn in Hp. destruct Hp as (Hnh & Hlt & ->).
      destruct (zget b h) as [y|] eqn:Ey; [|discriminate]. inversion E; subst; cbn.
      exists q; cbn. rewrite app_nil_r.
      split; [|intuition].
      split; [reflexivity|]. split; [apply repr_store; assumption|].
      split; [|exact Hc].
      repeat split; auto. apply zget_zset_same. eapply zget_Some; eauto.
    + cbn in Hp. destruct Hp as (Hnh & Hlt & Hd). inversion E; subst; cbn.
      exists (q ++ [d]); cbn. split; [|split; [reflexivity|split; [intuition discriminate|intuition discriminate]]].
      split; [reflexivity|]. split; [apply repr_commit; assumption|].
      split; [exact I|].
      assert (Hne : q ++ [d] <> []) by (destruct q; discriminate).
      destruct c as [| | ? [|] v| |t'|d'|d' t']; cbn in *; auto.
      * destruct Hc as [_ ->]; auto.
      * destruct Hc as [q' ->]. exists (q' ++ [d]); reflexivity.
      * destruct Hc as [-> [q' ->]]. split; [reflexivity|]. exists (q' ++ [d]); reflexivity.
  - destruct c; inversion E; subst; cbn. exists q; cbn. rewrite app_nil_r. intuition.
  - destruct c as [|qq ord|qq ord v| |t'|d|d t']; cbn in E; try discriminate.
    + inversion E; subst; cbn. exists q; cbn. rewrite app_nil_r.
      assert (He := repr_empty _ _ _ _ _ Hr).
      destruct ord; cbn; intuition.
      destruct q; [left|right; discriminate]. apply Z.eqb_eq in He; congruence.
    + assert (He := repr_empty _ _ _ _ _ Hr). cbn in Hc.
      assert (Hq : (v =? (if ord then h else t)) = false -> q <> []).
      { destruct ord; [subst v|].
        - rewrite He. destruct q; [discriminate|discriminate].
        - intros Hv. destruct Hc as [->|Hc]; [rewrite Z.eqb_refl in Hv; discriminate|assumption]. }
      destruct qq; [|destruct (v =? (if ord then h else t)) eqn:Ev]; inversion E; subst; cbn;
        exists q; cbn; rewrite app_nil_r; intuition; try discriminate.
      destruct (v =? (if ord then h else t)); [|auto].
      match goal with H : ORetQ _ = ORetQ true |- _ => discriminate H end.
    + inversion E; subst; cbn in *. exists q; cbn; rewrite app_nil_r; intuition.
    + cbn in Hc. destruct Hc as [Hq ->]. destruct q as [|x q]; [congruence|].
      rewrite (repr_head _ _ _ _ _ _ Hr) in E. inversion E; subst; cbn.
      exists (x :: q); cbn. rewrite app_nil_r. intuition. exists q; reflexivity.
    + inversion E; subst; cbn in *. exists q; cbn; rewrite app_nil_r; intuition.
    + cbn in Hc. destruct Hc as [-> [q' ->]]. inversion E; subst; cbn.
      exists q'; cbn. rewrite app_nil_r.
      split; [|intuition discriminate].
      split; [reflexivity|]. rewrite rem_succ by lia.
      split; [eapply repr_read; eauto|]. split; [|exact I].
      destruct p; cbn in *; intuition lia.
Qed.

Lemma sent_app a b : sent (a ++ b) = sent a ++ sent b.
Proof. apply flat_map_app. Qed.
Lemma received_app a b : received (a ++ b) = received a ++ received b.
Proof. apply flat_map_app. Qed.

Lemma sys_run_inv ls : forall s q s' tr,
  sinv s q -> sys_run s ls = Some (s', tr) ->
  exists q', sinv s' q' /\ q ++ sent tr = received tr ++ q'.
Proof.
  induction ls as [|l t IH]; intros s q s' tr Hi E; cbn in E.
  - inversion E; subst. exists q; cbn. rewrite app_nil_r; auto.
  - destruct (sys_step s l) as [[s1 o1]|] eqn:E1; [|discriminate].
    destruct (sys_run s1 t) as [[s2 o2]|] eqn:E2; [|discriminate].
    inversion E; subst.
    destruct (sys_step_inv _ _ _ _ _ Hi E1) as (q1 & Hi1 & Hq1 & _).
    destruct (IH _ _ _ _ Hi1 E2) as (q2 & Hi2 & Hq2).
    exists q2; split; [assumption|].
    rewrite sent_app, received_app, app_assoc, Hq1, <- !app_assoc. f_equal; assumption.
Qed.

Lemma sys_init_inv arr :
  2 <= n <= 65535 -> n <= Z.of_nat (length arr) -> sinv (sys_init arr n) [].
Proof.
  intros Hn Ha. destruct (ring_init_repr arr n Hn Ha) as (b & Hb & _ & Hr).
  cbn in *. injection Hb as ->. unfold sinv; cbn. auto.
Qed.

Lemma spsc_main arr ls s tr :
  2 <= n <= 65535 -> n <= Z.of_nat (length arr) ->
  sys_run (sys_init arr n) ls = Some (s, tr) ->
  exists rest, sent tr = received tr ++ rest /\ Z.of_nat (length rest) <= n - 1.
Proof.
  intros Hn Ha E.
  destruct (sys_run_inv _ _ _ _ _ (sys_init_inv arr Hn Ha) E) as (q & Hi & Hq).
  exists q; split; [exact Hq|]. destruct Hi as (_ & Hr & _).
  apply repr_len in Hr. lia.
Qed.

(** The byte of every started write is reported exactly once, in order. *)
Definition p_pending (p : ppc) : list Z :=
  match p with
  | PIdle => []
  | PLoadHead d | PLoadTail d _ | PLoadHead2 d _ | PStoreBuf d _ _ | PStoreHead d _ => [d]
  end.
Definition reported (tr : list obs) : list Z :=
  flat_map (fun o => match o with ORetW d _ => [d] | _ => [] end) tr.

Lemma requested_reported ls : forall s s' tr,
  sys_run s ls = Some (s', tr) ->
  p_pending (y_p s) ++ requested ls = reported tr ++ p_pending (y_p s').
Proof.
  induction ls as [|l t IH]; intros s s' tr E; cbn in E.
  - inversion E; subst. cbn. rewrite app_nil_r. reflexivity.
  - destruct (sys_step s l) as [[s1 o1]|] eqn:E1; [|discriminate].
    destruct (sys_run s1 t) as [[s2 o2]|] eqn:E2; [|discriminate].
    inversion E; subst. specialize (IH _ _ _ E2).
    unfold reported. rewrite flat_map_app. fold (reported o1) (reported o2).
    destruct s as [[b tl h sz] p c].
    assert (H1 : p_pending p ++ requested [l] = reported o1 ++ p_pending (y_p s1)).
    { destruct l; cbn in E1.
      - destruct p; inversion E1; subst; reflexivity.
      - destruct p; cbn in E1; try discriminate;
          try (inversion E1; subst; reflexivity).
        + destruct (nh =? tl); inversion E1; subst; reflexivity.
        + destruct (zget b h0); inversion E1; subst; reflexivity.
      - destruct c; inversion E1; subst; rewrite app_nil_r; reflexivity.
      - cbn. rewrite app_nil_r. destruct c; cbn in E1; try discriminate.
        + inversion E1; subst; reflexivity.
        + destruct query; [|destruct (v =? (if ord then h else tl))];
            inversion E1; subst; reflexivity.
        + inversion E1; subst; reflexivity.
        + destruct (zget b t0); inversion E1; subst; reflexivity.
        + inversion E1; subst; reflexivity.
        + inversion E1; subst; reflexivity. }
    assert (Hrq : requested (l :: t) = requested [l] ++ requested t)
      by (unfold requested; cbn [flat_map]; rewrite app_nil_r; reflexivity).
    rewrite Hrq.
    rewrite app_assoc. cbn [y_p] in *. rewrite H1, <- !app_assoc. f_equal. exact IH.
Qed.

(** No memory access is out of bounds: a call in progress can always advance. *)
Lemma never_stuck arr ls s tr :
  2 <= n <= 65535 -> n <= Z.of_nat (length arr) ->
  sys_run (sys_init arr n) ls = Some (s, tr) ->
  (y_p s <> PIdle -> sys_step s LStepW <> None) /\
  (y_c s <> CIdle -> sys_step s LStepR <> None).
Proof.
  intros Hn Ha E.
  destruct (sys_run_inv _ _ _ _ _ (sys_init_inv arr Hn Ha) E) as (q & Hi & _).
  destruct s as [[b t h sz] p c]. unfold sinv in Hi; cbn in Hi.
  destruct Hi as (-> & Hr & Hp & Hc). split; intros Hne; cbn.
  - destruct p; cbn in *; try congruence; try discriminate.
    + destruct (nh =? t); discriminate.
    + destruct Hp as (_ & _ & ->). destruct (zget_in_range b h) as [y ->]; [|discriminate].
      destruct Hr as (? & ? & ? & ? & _); lia.
  - destruct c; cbn in *; try congruence; try discriminate.
    + destruct query; [discriminate|]. destruct (v =? (if ord then h else t)); discriminate.
    + destruct Hc as (_ & ->). destruct (zget_in_range b t) as [y ->]; [|discriminate].
      destruct Hr as (? & ? & ? & ? & _); lia.
Qed.

(** A write reports FULL only when n-1 accepted bytes are waiting. *)
Lemma full_only_when_full arr ls l s s' tr o d :
  2 <= n <= 65535 -> n <= Z.of_nat (length arr) ->
  sys_run (sys_init arr n) ls = Some (s, tr) ->
  sys_step s l = Some (s', o) -> In (ORetW d RB_FULL) o ->
  Z.of_nat (length (sent tr)) - Z.of_nat (length (received tr)) = n - 1.
Proof.
  intros Hn Ha E E1 Hin.
  destruct (sys_run_inv _ _ _ _ _ (sys_init_inv arr Hn Ha) E) as (q & Hi & Hq).
  destruct (sys_step_inv _ _ _ _ _ Hi E1) as (q1 & _ & _ & Hf & _).
  apply Hf in Hin. cbn in Hq. rewrite Hq, app_length. lia.
Qed.

(** A positive ready-to-read answer is reliable: some accepted byte is undelivered. *)
Lemma ready_reliable arr ls l s s' tr o :
  2 <= n <= 65535 -> n <= Z.of_nat (length arr) ->
  sys_run (sys_init arr n) ls = Some (s, tr) ->
  sys_step s l = Some (s', o) -> In (ORetQ true) o ->
  (length (received tr) < length (sent tr))%nat.
Proof.
  intros Hn Ha E E1 Hin.
  destruct (sys_run_inv _ _ _ _ _ (sys_init_inv arr Hn Ha) E) as (q & Hi & Hq).
  destruct (sys_step_inv _ _ _ _ _ Hi E1) as (q1 & _ & _ & _ & Hf).
  apply Hf in Hin. cbn in Hq. rewrite Hq, app_length.
  destruct q; [congruence|cbn; lia].
Qed.
End Spsc.
