(** Exact playback of an envelope. *)
From Verif Require Import Base BaseLemmas PitchModel PitchSpec PitchProofs PsgModel PsgSpec PsgProofs PsgRunProofs PsgClaimsProofs.

(** ** List positions *)
Lemma zget_app_l (a b : list Z) i : 0 <= i < len a -> zget (a ++ b) i = zget a i.
Proof.
  unfold len, zget. intros H. destruct (i <? 0); [reflexivity|]. apply nth_error_app1. lia.
Qed.
Lemma zget_app_r (a b : list Z) i : 0 <= i -> zget (a ++ b) (len a + i) = zget b i.
Proof.
  unfold len, zget. intros H. destruct (Z.ltb_spec (Z.of_nat (length a) + i) 0); [lia|]. destruct (Z.ltb_spec i 0); [lia|].
  rewrite nth_error_app2 by lia. f_equal. lia.
Qed.
Lemma zget_cons0 (x : Z) l : zget (x :: l) 0 = Some x. Proof. reflexivity. Qed.
Lemma zget_consS (x : Z) l i : 0 <= i -> zget (x :: l) (1 + i) = zget l i.
Proof.
  intros H. unfold zget. destruct (Z.ltb_spec (1 + i) 0); [lia|]. destruct (Z.ltb_spec i 0); [lia|].
  replace (Z.to_nat (1 + i)) with (S (Z.to_nat i)) by lia. reflexivity.
Qed.
Lemma len_nonneg l : 0 <= len l. Proof. unfold len; lia. Qed.
Lemma zget_data l i : Forall data_byte l -> 0 <= i < len l -> exists b, zget l i = Some b /\ 0 <= b < 253.
Proof.
  intros F H. destruct (zget_in_range l i H) as [b Hb]. exists b. split; [exact Hb|]. eapply Forall_zget in Hb; [|exact F]. exact Hb.
Qed.
Lemma zget_none (l : list Z) i : len l <= i -> zget l i = None.
Proof. unfold len, zget. intros H. destruct (i <? 0); [reflexivity|]. apply nth_error_None. lia. Qed.

Lemma mod_succ x n : 0 < n -> (x + 1) mod n = if x mod n + 1 =? n then 0 else x mod n + 1.
Proof.
  intros Hn. assert (B := Z.mod_pos_bound x n Hn). assert (D := Z.div_mod x n ltac:(lia)).
  destruct (Z.eqb_spec (x mod n + 1) n).
  - symmetry. apply Z.mod_unique with (x / n + 1); lia.
  - symmetry. apply Z.mod_unique with (x / n); lia.
Qed.

(** ** One channel *)
Section Play.
Context (pal : bool) (envs : list (list Z)) (user : list Z) (up : bool).
Context (B : Z -> eptr) (e : list Z) (E : Z).
Context (Bnext : forall i, pnext (B i) = B (i + 1)) (Bnull : forall i, is_null (B i) = false).
Context (Bpeek : forall i, 0 <= i <= E -> peek envs user (B i) = zget e i).

Notation stl := (settle pal envs user).
Notation adv := (advance envs user).

(** Position, loop position and flags. *)
Definition at_ (ch : psgchan) (on rel : bool) (i : Z) (lo : eptr) : Prop :=
  g_on ch = on /\ g_rel ch = rel /\ g_step ch = B i /\ g_loop ch = lo.

Lemma settle_data ch rel i lo b : at_ ch true rel i lo -> peek envs user (B i) = Some b -> 0 <= b < 253 -> at_ (fst (stl ch)) true rel i lo.
Proof.
  intros (H1 & H2 & H3 & H4) Hb Hr. unfold settle, walk, walk2, walk1. cbv zeta. rewrite H3, Hb.
  unfold EEF_LOOP_START, EEF_LOOP_END, EEF_END.
  destruct (Z.eqb_spec b 254); [lia|]. rewrite H3, Hb. destruct (Z.eqb_spec b 253); [lia|]. cbn [andb]. rewrite H3, Hb.
  destruct (Z.eqb_spec b 255); [lia|]. split; [exact H1|split; [exact H2|split; [exact H3|exact H4]]].
Qed.

Lemma settle_loop_start ch rel i lo b : at_ ch true rel i lo -> peek envs user (B i) = Some 254 ->
  peek envs user (B (i + 1)) = Some b -> 0 <= b < 253 -> at_ (fst (stl ch)) true rel (i + 1) (B (i + 1)).
Proof.
  intros (H1 & H2 & H3 & H4) Hb Hb' Hr. unfold settle, walk, walk2, walk1. cbv zeta. rewrite H3, Hb.
  change (254 =? EEF_LOOP_START) with true. cbv iota. rewrite Bnext. cbn [g_step g_set_loop g_set_step]. rewrite Hb'.
  unfold EEF_LOOP_END, EEF_END. destruct (Z.eqb_spec b 253); [lia|]. cbn [andb g_step g_set_loop g_set_step]. rewrite Hb'.
  destruct (Z.eqb_spec b 255); [lia|]. split; [exact H1|split; [exact H2|split; reflexivity]].
Qed.

Lemma settle_loop_end ch i l b : at_ ch true false i (B l) -> peek envs user (B i) = Some 253 ->
  peek envs user (B l) = Some b -> 0 <= b < 253 -> at_ (fst (stl ch)) true false l (B l).
Proof.
  intros (H1 & H2 & H3 & H4) Hb Hb' Hr. unfold settle, walk, walk2, walk1. cbv zeta. rewrite H3, Hb.
  change (253 =? EEF_LOOP_START) with false. cbv iota. rewrite H3, Hb, H4, Bnull, H2.
  change (253 =? EEF_LOOP_END) with true. cbn [andb negb g_step g_set_step]. rewrite Hb'. unfold EEF_END.
  destruct (Z.eqb_spec b 255); [lia|]. split; [exact H1|split; [exact H2|split; [reflexivity|exact H4]]].
Qed.

Lemma settle_loop_exit ch i l b : at_ ch true true i (B l) -> peek envs user (B i) = Some 253 ->
  peek envs user (B (i + 1)) = Some b -> b < 253 \/ b = 255 ->
  if b =? 255 then g_on (fst (stl ch)) = false else at_ (fst (stl ch)) true true (i + 1) (B l).
Proof.
  intros (H1 & H2 & H3 & H4) Hb Hb' Hr. unfold settle, walk, walk2, walk1. cbv zeta. rewrite H3, Hb.
  change (253 =? EEF_LOOP_START) with false. cbv iota. rewrite H3, Hb, H4, Bnull, H2, Bnext.
  change (253 =? EEF_LOOP_END) with true. cbn [andb negb g_step g_set_step g_rel g_loop]. rewrite Hb', H2. unfold EEF_END.
  destruct (Z.eqb_spec b 255); [rewrite andb_false_r; reflexivity|].
  split; [exact H1|split; [exact H2|split; [reflexivity|exact H4]]].
Qed.

Lemma settle_end ch rel i lo : at_ ch true rel i lo -> peek envs user (B i) = Some 255 -> is_null lo = true \/ rel = true ->
  g_on (fst (stl ch)) = false.
Proof.
  intros (H1 & H2 & H3 & H4) Hb Hr. unfold settle, walk, walk2, walk1. cbv zeta. rewrite H3, Hb.
  change (255 =? EEF_LOOP_START) with false. cbv iota. rewrite H3, Hb.
  change (255 =? EEF_LOOP_END) with false. cbn [andb]. rewrite H3, Hb. change (255 =? EEF_END) with true. cbv iota.
  rewrite H2, H4. destruct Hr as [-> | ->]; [reflexivity|rewrite andb_false_r; reflexivity].
Qed.

Lemma tick_advance ch rel i lo b : at_ ch true rel i lo -> peek envs user (B i) = Some b -> b <> 255 ->
  fst (cexec pal envs user up CTick ch) = fst (stl (adv ch)) /\ at_ (adv ch) true rel (i + 1) lo.
Proof.
  intros (H1 & H2 & H3 & H4) Hb Hne. cbn [cexec]. rewrite H1. split; [reflexivity|].
  unfold advance. rewrite H3, Hb. unfold EEF_END. destruct (Z.eqb_spec b 255); [contradiction|].
  split; [exact H1|split; [exact H2|split; [cbn; rewrite <- Bnext; f_equal; reflexivity|exact H4]]].
Qed.

(** *** Envelopes without a loop *)
Section Once.
Context (pre junk : list Z) (Fpre : Forall data_byte pre) (He : e = pre ++ 255 :: junk) (HE : E = len pre).

Definition once_at (k : Z) (ch : psgchan) : Prop :=
  if k <? len pre then at_ ch true false k ENull else g_on ch = false.

Lemma once_settle ch i : 0 <= i <= len pre -> at_ ch true false i ENull -> once_at i (fst (stl ch)).
Proof.
  intros Hi Ha. unfold once_at. destruct (Z.ltb_spec i (len pre)).
  - destruct (zget_data pre i Fpre) as (b & Hb & Hr); [lia|].
    eapply settle_data; [exact Ha| |exact Hr]. rewrite Bpeek, He, zget_app_l by lia. exact Hb.
  - replace i with (len pre) in * by lia. eapply settle_end; [exact Ha| |left; reflexivity].
    rewrite Bpeek, He by (pose proof (len_nonneg pre); lia). rewrite <- (Z.add_0_r (len pre)), zget_app_r by lia. reflexivity.
Qed.

Lemma once_tick ch k : 0 <= k -> once_at k ch -> once_at (k + 1) (fst (cexec pal envs user up CTick ch)).
Proof.
  intros Hk H. unfold once_at in H. destruct (Z.ltb_spec k (len pre)).
  - destruct (zget_data pre k Fpre) as (b & Hb & Hr); [lia|].
    destruct (tick_advance ch false k ENull b H) as [-> Ha]; [rewrite Bpeek, He, zget_app_l by lia; exact Hb|lia|].
    apply once_settle; [lia|exact Ha].
  - unfold once_at. destruct (Z.ltb_spec (k + 1) (len pre)); [lia|]. cbn. rewrite H. exact H.
Qed.
End Once.

(** *** Looping envelopes *)
Section Loop.
Context (pre body post junk : list Z) (Fpre : Forall data_byte pre) (Fbody : Forall data_byte body) (Fpost : Forall data_byte post).
Context (Hbody : body <> []) (He : e = pre ++ 254 :: body ++ 253 :: post ++ 255 :: junk).
Context (HE : E = len pre + 1 + len body + 1 + len post).

Notation a := (len pre).
Notation n := (len body).
Notation m := (len post).

Lemma n_pos : 0 < n.
Proof. unfold len. destruct body; [contradiction|cbn; lia]. Qed.
Lemma a_nn : 0 <= a. Proof. apply len_nonneg. Qed.
Lemma m_nn : 0 <= m. Proof. apply len_nonneg. Qed.

Lemma pk_pre i : 0 <= i < a -> peek envs user (B i) = zget pre i.
Proof. pose proof n_pos. pose proof m_nn. intros H1. rewrite Bpeek, He, zget_app_l by lia. reflexivity. Qed.
Lemma pk_start : peek envs user (B a) = Some 254.
Proof. pose proof n_pos. pose proof m_nn. pose proof a_nn. rewrite Bpeek, He by lia. rewrite <- (Z.add_0_r a), zget_app_r by lia. reflexivity. Qed.
Lemma pk_body q : 0 <= q < n -> peek envs user (B (a + 1 + q)) = zget body q.
Proof.
  pose proof n_pos. pose proof m_nn. pose proof a_nn. intros Hq. rewrite Bpeek, He by lia.
  replace (a + 1 + q) with (a + (1 + q)) by lia. rewrite zget_app_r by lia. rewrite zget_consS by lia. apply zget_app_l. lia.
Qed.
Lemma pk_stop : peek envs user (B (a + 1 + n)) = Some 253.
Proof.
  pose proof n_pos. pose proof m_nn. pose proof a_nn. rewrite Bpeek, He by lia.
  replace (a + 1 + n) with (a + (1 + (n + 0))) by lia. rewrite zget_app_r by lia. rewrite zget_consS by lia. rewrite zget_app_r by lia. reflexivity.
Qed.
Lemma pk_post q : 0 <= q < m -> peek envs user (B (a + 1 + n + 1 + q)) = zget post q.
Proof.
  pose proof n_pos. pose proof m_nn. pose proof a_nn. intros Hq. rewrite Bpeek, He by lia.
  replace (a + 1 + n + 1 + q) with (a + (1 + (n + (1 + q)))) by lia.
  rewrite zget_app_r, zget_consS, zget_app_r, zget_consS by lia. apply zget_app_l. lia.
Qed.
Lemma pk_end : peek envs user (B (a + 1 + n + 1 + m)) = Some 255.
Proof.
  pose proof n_pos. pose proof m_nn. pose proof a_nn. rewrite Bpeek, He by lia.
  replace (a + 1 + n + 1 + m) with (a + (1 + (n + (1 + (m + 0))))) by lia.
  rewrite zget_app_r, zget_consS, zget_app_r, zget_consS, zget_app_r by lia. reflexivity.
Qed.

Definition held_at (k : Z) (ch : psgchan) : Prop :=
  if k <? a then at_ ch true false k ENull
  else at_ ch true false (a + 1 + (k - a) mod n) (B (a + 1)).

Lemma body0 : exists b, peek envs user (B (a + 1)) = Some b /\ 0 <= b < 253.
Proof. pose proof n_pos. rewrite <- (Z.add_0_r (a + 1)), pk_body by lia. apply zget_data; [exact Fbody|lia]. Qed.

Lemma held_settle_pre ch i : 0 <= i <= a -> at_ ch true false i ENull -> held_at i (fst (stl ch)).
Proof.
  pose proof n_pos. intros Hi Ha. unfold held_at. destruct (Z.ltb_spec i a).
  - destruct (zget_data pre i Fpre) as (b & Hb & Hr); [lia|]. eapply settle_data; [exact Ha|rewrite pk_pre by lia; exact Hb|exact Hr].
  - replace i with a in * by lia. destruct body0 as (b & Hb & Hr). rewrite Z.sub_diag, Z.mod_0_l, Z.add_0_r by lia.
    eapply settle_loop_start; [exact Ha|exact pk_start|exact Hb|exact Hr].
Qed.

Lemma held_tick ch k : 0 <= k -> held_at k ch -> held_at (k + 1) (fst (cexec pal envs user up CTick ch)).
Proof.
  pose proof n_pos as Hn. pose proof a_nn. intros Hk Hh. unfold held_at in Hh. destruct (Z.ltb_spec k a).
  - destruct (zget_data pre k Fpre) as (b & Hb & Hr); [lia|].
    destruct (tick_advance ch false k ENull b Hh) as [-> Ha]; [rewrite pk_pre by lia; exact Hb|lia|].
    apply held_settle_pre; [lia|exact Ha].
  - assert (Hq := Z.mod_pos_bound (k - a) n Hn). set (q := (k - a) mod n) in *.
    destruct (zget_data body q Fbody) as (b & Hb & Hr); [lia|].
    destruct (tick_advance ch false (a + 1 + q) (B (a + 1)) b Hh) as [-> Ha]; [rewrite pk_body by lia; exact Hb|lia|].
    unfold held_at. destruct (Z.ltb_spec (k + 1) a); [lia|]. replace (k + 1 - a) with (k - a + 1) by lia.
    rewrite mod_succ by exact Hn. fold q. replace (a + 1 + q + 1) with (a + 1 + (q + 1)) in Ha by lia.
    destruct (Z.eqb_spec (q + 1) n) as [Eq|Ne].
    + rewrite Eq in Ha. destruct body0 as (b0 & Hb0 & Hr0). rewrite Z.add_0_r.
      eapply settle_loop_end; [exact Ha|exact pk_stop|exact Hb0|exact Hr0].
    + destruct (zget_data body (q + 1) Fbody) as (b1 & Hb1 & Hr1); [lia|].
      eapply settle_data; [exact Ha|rewrite pk_body by lia; exact Hb1|exact Hr1].
Qed.

(** [x] frames after the start of the last pass through the loop. *)
Definition rel_at (x : Z) (ch : psgchan) : Prop :=
  if x <? n then at_ ch true true (a + 1 + x) (B (a + 1))
  else if x <? n + m then at_ ch true true (a + 1 + n + 1 + (x - n)) (B (a + 1))
  else g_on ch = false.

Lemma rel_tick ch x : 0 <= x -> rel_at x ch -> rel_at (x + 1) (fst (cexec pal envs user up CTick ch)).
Proof.
  pose proof n_pos as Hn. pose proof a_nn. pose proof m_nn. intros Hx Hh. unfold rel_at in Hh.
  destruct (Z.ltb_spec x n); [|destruct (Z.ltb_spec x (n + m))].
  - destruct (zget_data body x Fbody) as (b & Hb & Hr); [lia|].
    destruct (tick_advance ch true _ (B (a + 1)) b Hh) as [-> Ha]; [rewrite pk_body by lia; exact Hb|lia|].
    replace (a + 1 + x + 1) with (a + 1 + (x + 1)) in Ha by lia. unfold rel_at. destruct (Z.ltb_spec (x + 1) n).
    + destruct (zget_data body (x + 1) Fbody) as (b1 & Hb1 & Hr1); [lia|].
      eapply settle_data; [exact Ha|rewrite pk_body by lia; exact Hb1|exact Hr1].
    + replace (x + 1) with n in * by lia. destruct (Z.ltb_spec n (n + m)).
      * destruct (zget_data post 0 Fpost) as (b1 & Hb1 & Hr1); [lia|].
        assert (P := settle_loop_exit _ _ _ b1 Ha pk_stop). rewrite <- (Z.add_0_r (a + 1 + n + 1)), pk_post in P by lia.
        specialize (P Hb1 ltac:(lia)). destruct (Z.eqb_spec b1 255); [lia|]. rewrite Z.sub_diag. exact P.
      * assert (m = 0) by lia. assert (P := settle_loop_exit _ _ _ 255 Ha pk_stop).
        assert (Pe := pk_end). replace (a + 1 + n + 1 + m) with (a + 1 + n + 1) in Pe by lia. exact (P Pe (or_intror eq_refl)).
  - destruct (zget_data post (x - n) Fpost) as (b & Hb & Hr); [lia|].
    destruct (tick_advance ch true _ (B (a + 1)) b Hh) as [-> Ha]; [rewrite pk_post by lia; exact Hb|lia|].
    replace (a + 1 + n + 1 + (x - n) + 1) with (a + 1 + n + 1 + (x + 1 - n)) in Ha by lia.
    unfold rel_at. destruct (Z.ltb_spec (x + 1) n); [lia|]. destruct (Z.ltb_spec (x + 1) (n + m)).
    + destruct (zget_data post (x + 1 - n) Fpost) as (b1 & Hb1 & Hr1); [lia|].
      eapply settle_data; [exact Ha|rewrite pk_post by lia; exact Hb1|exact Hr1].
    + replace (x + 1 - n) with m in Ha by lia. eapply settle_end; [exact Ha|exact pk_end|right; reflexivity].
  - unfold rel_at. destruct (Z.ltb_spec (x + 1) n); [lia|]. destruct (Z.ltb_spec (x + 1) (n + m)); [lia|].
    cbn. rewrite Hh. exact Hh.
Qed.

Lemma held_release ch k : 0 <= k -> held_at k ch ->
  let ch' := fst (cexec pal envs user up COff ch) in
  if k <? a then g_on ch' = false else rel_at ((k - a) mod n) ch'.
Proof.
  pose proof n_pos as Hn. intros Hk Hh. cbv zeta. unfold held_at in Hh. cbn [cexec]. destruct (Z.ltb_spec k a).
  - destruct Hh as (H1 & H2 & H3 & H4). rewrite H1, H4. reflexivity.
  - destruct Hh as (H1 & H2 & H3 & H4). rewrite H1, H4, Bnull. cbn [fst]. unfold rel_at.
    assert (Hq := Z.mod_pos_bound (k - a) n Hn). destruct (Z.ltb_spec ((k - a) mod n) n); [|lia].
    split; [exact H1|split; [reflexivity|split; [exact H3|exact H4]]].
Qed.
End Loop.

(** Operations that leave position and flags alone. *)
Lemma at_other k ch on rel i lo : (match k with CVol _ | CProg _ | CPitch _ _ => True | _ => False end) ->
  at_ ch on rel i lo -> at_ (fst (cexec pal envs user up k ch)) on rel i lo.
Proof.
  destruct k; try contradiction; intros _ H; cbn [cexec]; cbv zeta; try exact H.
  - destruct (g_on ch); [|exact H]. destruct (peek _ _ _); exact H.
  - destruct (peek _ _ _); exact H.
Qed.
Lemma on_other k ch : (match k with CVol _ | CProg _ | CPitch _ _ => True | _ => False end) ->
  g_on (fst (cexec pal envs user up k ch)) = g_on ch.
Proof.
  destruct k; try contradiction; intros _; cbn [cexec]; cbv zeta; try reflexivity.
  - destruct (g_on ch) eqn:Eo; [destruct (peek _ _ _)|]; exact Eo.
  - destruct (peek _ _ _); reflexivity.
Qed.
End Play.
