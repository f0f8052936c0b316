(** Proofs about the PSG model. *)
From Verif Require Import Base BaseLemmas PitchModel PitchSpec PitchProofs PsgModel PsgSpec.

(** ** Attenuation arithmetic *)
Lemma att_table v : 0 <= v < 128 ->
  zget ATTENUATIONS v = Some (nth (Z.to_nat v) ATTENUATIONS 15) /\ 0 <= nth (Z.to_nat v) ATTENUATIONS 15 <= 15.
Proof.
  intros H.
  assert (A : allb 0 128 (fun v => match zget ATTENUATIONS v with
     | Some x => (x =? nth (Z.to_nat v) ATTENUATIONS 15) && (0 <=? x) && (x <=? 15) | None => false end) = true)
    by reflexivity.
  assert (B := allb_spec _ _ _ A v). cbv beta in B. specialize (B ltac:(lia)).
  destruct (zget ATTENUATIONS v); [|discriminate].
  apply andb_prop in B. destruct B as [B B3]. apply andb_prop in B. destruct B as [B1 B2].
  apply Z.eqb_eq in B1. subst. split; [reflexivity|lia].
Qed.

Lemma att_step v : 0 <= v < 127 -> nth (Z.to_nat (v + 1)) ATTENUATIONS 15 <= nth (Z.to_nat v) ATTENUATIONS 15.
Proof.
  intros H.
  assert (A : allb 0 127 (fun v => nth (Z.to_nat (v + 1)) ATTENUATIONS 15 <=? nth (Z.to_nat v) ATTENUATIONS 15) = true) by reflexivity.
  assert (B := allb_spec _ _ _ A v). cbv beta in B. specialize (B ltac:(lia)). lia.
Qed.

Lemma att_antitone v w : 0 <= v -> v <= w -> w < 128 ->
  nth (Z.to_nat w) ATTENUATIONS 15 <= nth (Z.to_nat v) ATTENUATIONS 15.
Proof.
  intros Hv Hle Hw. replace w with (v + Z.of_nat (Z.to_nat (w - v))) in * by lia.
  generalize dependent (Z.to_nat (w - v)). intros n. clear w.
  induction n as [|n IH]; intros Hle Hw; [rewrite Z.add_0_r; lia|].
  rewrite Nat2Z.inj_succ in *. unfold Z.succ in *. rewrite Z.add_assoc.
  etransitivity; [apply att_step; lia|]. apply IH; lia.
Qed.

Lemma volvel v w : seven v -> seven w -> 0 <= v * w / 127 < 128.
Proof. unfold seven; intros. split; [apply Z.div_pos; nia|apply Z.div_lt_upper_bound; nia]. Qed.

Lemma invs a b : 0 <= a <= 15 -> 0 <= b <= 15 -> 0 <= a * b / 15 <= 15.
Proof. intros; split; [apply Z.div_pos; nia|apply Z.div_le_upper_bound; nia]. Qed.

Lemma u8_id x : 0 <= x < 256 -> u8 x = x.
Proof. intros; unfold u8; apply Z.mod_small; assumption. Qed.

Lemma land15 b : Z.land b 15 = b mod 16.
Proof. change 15 with (Z.ones 4). rewrite Z.land_ones by lia. reflexivity. Qed.

Lemma combine_eq a b : 0 <= a <= 15 ->
  combine_attenuation a b = 15 - (15 - a) * (15 - b mod 16) / 15.
Proof.
  intros Ha. unfold combine_attenuation. cbv zeta. rewrite land15.
  assert (Hm := Z.mod_pos_bound b 16 ltac:(lia)).
  rewrite (u8_id (b mod 16)) by lia. rewrite (u8_id (15 - a)) by lia. rewrite (u8_id (15 - b mod 16)) by lia.
  rewrite Z.quot_div_nonneg by nia.
  assert (R := invs (15 - a) (15 - b mod 16) ltac:(lia) ltac:(lia)).
  rewrite (u8_id (_ / 15)) by lia. apply u8_id. lia.
Qed.

Lemma c11_law : psg_law psg_level.
Proof.
  unfold psg_law, psg_level. split; [|split; [|split]].
  - intros v w e Hv Hw He. destruct (att_table _ (volvel v w Hv Hw)) as [_ R].
    assert (I := invs (15 - nth (Z.to_nat (v * w / 127)) ATTENUATIONS 15) (15 - e) ltac:(lia) ltac:(lia)). lia.
  - intros v w e Hv Hw He [-> | [-> | ->]].
    + cbn. change (0 / 127) with 0. cbn. rewrite Z.mul_0_l. reflexivity.
    + rewrite Z.mul_0_r. change (0 / 127) with 0. cbn. rewrite Z.mul_0_l. reflexivity.
    + rewrite Z.sub_diag, Z.mul_0_r. reflexivity.
  - intros e He. change (127 * 127 / 127) with 127. change (nth (Z.to_nat 127) ATTENUATIONS 15) with 0.
    rewrite Z.sub_0_r, (Z.mul_comm 15), Z.div_mul by lia. lia.
  - intros v v' w w' e e' H1 H2 H3 H4 H5 H6.
    assert (D : v * w / 127 <= v' * w' / 127) by (apply Z.div_le_mono; nia).
    assert (S1 : seven v) by (unfold seven; lia). assert (S2 : seven w) by (unfold seven; lia).
    assert (S3 : seven v') by (unfold seven; lia). assert (S4 : seven w') by (unfold seven; lia).
    assert (V1 := volvel v w S1 S2). assert (V2 := volvel v' w' S3 S4).
    assert (A := att_antitone _ _ (proj1 V1) D (proj2 V2)).
    destruct (att_table _ V1) as [_ R1]. destruct (att_table _ V2) as [_ R2].
    set (x := nth (Z.to_nat (v * w / 127)) ATTENUATIONS 15) in *.
    set (y := nth (Z.to_nat (v' * w' / 127)) ATTENUATIONS 15) in *. clearbody x y.
    assert (Dm : (15 - x) * (15 - e) / 15 <= (15 - y) * (15 - e') / 15) by (apply Z.div_le_mono; nia).
    lia.
Qed.

Lemma level_range v w b : seven v -> seven w -> 0 <= psg_level v w (b mod 16) <= 15.
Proof. intros. apply c11_law; auto. apply Z.mod_pos_bound; lia. Qed.

(** ** Channel functions in closed form *)
Section Chan.
Context (pal : bool) (envs : list (list Z)) (user : list Z) (userp : bool).
Notation peek := (peek envs user).

Lemma deref_eq p b c : peek p = Some b -> deref envs user p c = Done b c [].
Proof.
  destruct p as [|i|k i]; cbn; [discriminate| |]; unfold rd.
  - intros ->; reflexivity.
  - unfold bind. destruct (zget envs k) as [e|]; [|discriminate]. cbn. intros ->. reflexivity.
Qed.

Definition attev (c : psgchan) (a : Z) : list event := if a =? g_att c then [] else [EvPsgAtt (g_num c) a].
Definition tonev (c : psgchan) (t : Z) : list event := if t =? g_freq c then [] else [EvPsgTone (g_num c) t].

Lemma apply_att_eq a c : apply_attenuation a c = Done tt (g_set_att c a) (attev c a).
Proof.
  unfold apply_attenuation, attev, bind, get. destruct (Z.eqb_spec a (g_att c)) as [->|]; [|reflexivity].
  destruct c; reflexivity.
Qed.
Lemma apply_tone_eq a c : apply_tone a c = Done tt (g_set_freq c a) (tonev c a).
Proof.
  unfold apply_tone, tonev, bind, get. destruct (Z.eqb_spec a (g_freq c)) as [->|]; [|reflexivity].
  destruct c; reflexivity.
Qed.

Definition silent (c : psgchan) : psgchan := g_set_rel (g_set_on (g_set_att c 15) false) false.
Lemma psg_note_off_eq c : psg_note_off c = Done tt (silent c) (attev c 15).
Proof. unfold psg_note_off, bind. rewrite apply_att_eq. cbn. rewrite app_nil_r. reflexivity. Qed.

Definition tone_of (b : Z) (c : psgchan) : Z :=
  match tone_from_pitch_cents pal (envelope_shift (u8 (Z.shiftr b 4)) (mkPc (g_pitch c) (g_cents c))) with
  | Some t => t | None => 0 end.

Lemma envelope_tone_eq c b : peek (g_step c) = Some b -> envelope_tone pal envs user c = Done (tone_of b c) c [].
Proof.
  intros H. unfold envelope_tone, bind, get. rewrite (deref_eq _ _ _ H). unfold tone_of.
  match goal with |- context [tone_from_pitch_cents pal ?x] => destruct (tone_total pal x) as [t ->] end. reflexivity.
Qed.

Definition vv_ok (c : psgchan) : Prop := seven (g_vol c) /\ seven (g_vel c).
Definition level_of (b : Z) (c : psgchan) : Z := psg_level (g_vol c) (g_vel c) (b mod 16).

Lemma eff_eq c b : vv_ok c -> peek (g_step c) = Some b ->
  effective_attenuation envs user c = Done (level_of b c) c [].
Proof.
  intros [Hv Hw] H. unfold effective_attenuation, bind, get, rd.
  assert (R := volvel _ _ Hv Hw). unfold seven in *.
  rewrite Z.quot_div_nonneg by nia. destruct (att_table _ R) as [-> Ra]. cbn [ret].
  rewrite (deref_eq _ _ _ H). cbn. unfold level_of, psg_level. rewrite combine_eq by exact Ra. reflexivity.
Qed.

Definition both (b : Z) (c : psgchan) : psgchan := g_set_att (g_set_freq c (tone_of b c)) (level_of b c).
Lemma both_eq c b : vv_ok c -> peek (g_step c) = Some b ->
  apply_both pal envs user c = Done tt (both b c) (tonev c (tone_of b c) ++ attev c (level_of b c)).
Proof.
  intros Hv H. unfold apply_both, bind. rewrite (envelope_tone_eq c b H), apply_tone_eq.
  rewrite (eff_eq (g_set_freq c (tone_of b c)) b Hv H), apply_att_eq. reflexivity.
Qed.

(** ** The pointer walk *)
Definition walk1 (c : psgchan) : psgchan :=
  match peek (g_step c) with
  | Some b => if b =? EEF_LOOP_START then g_set_loop (g_set_step c (pnext (g_step c))) (pnext (g_step c)) else c
  | None => c end.
Definition walk2 (c : psgchan) : psgchan :=
  match peek (g_step c) with
  | Some b => if (b =? EEF_LOOP_END) && negb (is_null (g_loop c))
              then g_set_step c (if g_rel c then pnext (g_step c) else g_loop c) else c
  | None => c end.
Definition walk (c : psgchan) : psgchan := walk2 (walk1 c).

Definition has p : Prop := exists b, peek p = Some b.

Lemma step1_eq c : has (g_step c) -> step_loop_start envs user c = Done tt (walk1 c) [].
Proof.
  intros [b H]. unfold step_loop_start, walk1, bind, get. rewrite (deref_eq _ _ _ H), H.
  destruct (b =? EEF_LOOP_START); reflexivity.
Qed.
Lemma step2_eq c : has (g_step c) -> step_loop_end envs user c = Done tt (walk2 c) [].
Proof.
  intros [b H]. unfold step_loop_end, walk2, bind, get. rewrite (deref_eq _ _ _ H), H.
  destruct (_ && _); [|reflexivity]. cbn. destruct (g_rel c); reflexivity.
Qed.

Definition settle (c : psgchan) : psgchan * list event :=
  let d := walk c in
  match peek (g_step d) with
  | Some b =>
      if b =? EEF_END then
        if negb (is_null (g_loop d)) && negb (g_rel d) then
          match peek (g_loop d) with
          | Some b' => let d' := g_set_step d (g_loop d) in
                       (both b' d', tonev d' (tone_of b' d') ++ attev d' (level_of b' d'))
          | None => (d, []) end
        else (silent d, attev d 15)
      else (both b d, tonev d (tone_of b d) ++ attev d (level_of b d))
  | None => (d, [])
  end.

Lemma aes_eq c : vv_ok c -> has (g_step c) -> has (g_step (walk1 c)) -> has (g_step (walk c)) ->
  (is_null (g_loop (walk c)) = false -> has (g_loop (walk c))) ->
  apply_envelope_step pal envs user c = Done tt (fst (settle c)) (snd (settle c)).
Proof.
  intros Hv H1 H2 H3 H4. unfold apply_envelope_step, settle.
  unfold bind at 1. rewrite (step1_eq c H1). unfold bind at 1. rewrite (step2_eq _ H2). fold (walk c).
  assert (Hvw : vv_ok (walk c)).
  { unfold walk, walk2, walk1, vv_ok. repeat (match goal with |- context [match ?x with _ => _ end] => destruct x end); exact Hv. }
  destruct H3 as [b Hb]. rewrite Hb. unfold bind at 1, get. unfold bind at 1. rewrite (deref_eq _ _ _ Hb).
  destruct (b =? EEF_END).
  - destruct (negb (is_null (g_loop (walk c))) && negb (g_rel (walk c))) eqn:En.
    + apply andb_prop in En. destruct En as [En _]. apply negb_true_iff in En.
      destruct (H4 En) as [b' Hb']. rewrite Hb'. unfold bind, modify.
      rewrite (both_eq (g_set_step (walk c) (g_loop (walk c))) b' Hvw Hb'). reflexivity.
    + rewrite psg_note_off_eq. reflexivity.
  - rewrite (both_eq (walk c) b Hvw Hb). reflexivity.
Qed.
End Chan.

(** ** Invariant of one channel *)
Section Inv.
Context (pal : bool) (envs : list (list Z)) (Henvs : envs_ok envs).
Context (user : list Z) (userp : bool) (ue : Z).

(** [ue] is the index of an end marker in the user buffer no pointer into it
    has passed, -1 if there never was one. *)
Definition ue_ok : Prop :=
  length user = 256%nat /\ (ue = -1 \/ (0 <= ue < 256 /\ zget user ue = Some 0xFF)) /\ (userp = true -> 0 <= ue).
Context (Hue : ue_ok).

Definition pok (p : eptr) : Prop :=
  match p with
  | ENull => False
  | EUser i => 0 <= i <= ue
  | ERom k i => exists e n, zget envs k = Some e /\ 0 <= i <= n /\ zget e n = Some 0xFF /\
      (forall j, 0 <= j < n -> zget e j <> Some 0xFF)
  end.

Definition chok (c : psgchan) : Prop :=
  vv_ok c /\ seven (g_env c) /\ pok (g_step c) /\ (is_null (g_loop c) = false -> pok (g_loop c)) /\
  0 <= g_pitch c < 256 /\ 0 <= g_cents c < 100 /\ 0 <= g_att c <= 15 /\ 0 <= g_freq c < 1024 /\
  (g_on c = false -> g_att c = 15 /\ g_rel c = false).

Lemma pok_has p : pok p -> has envs user p.
Proof.
  unfold has. destruct p as [|i|k i]; cbn.
  - intros [].
  - intros H. apply zget_in_range. destruct Hue as (-> & [->|[? _]] & _); lia.
  - intros (e & n & -> & Hi & Hn & _). apply zget_in_range. apply zget_Some in Hn. lia.
Qed.

Lemma pok_next p b : pok p -> peek envs user p = Some b -> b <> 0xFF -> pok (pnext p).
Proof.
  destruct p as [|i|k i]; cbn.
  - intros [].
  - intros H Hb Hne. destruct Hue as (_ & [He|[Hr He]] & _); [lia|].
    assert (i <> ue) by congruence. lia.
  - intros (e & n & E & Hi & Hn & Hf). rewrite E. intros Hb Hne. exists e, n.
    assert (i <> n) by congruence. split; [reflexivity|split; [lia|split; assumption]].
Qed.

Lemma first_end (e : list Z) : In 0xFF e -> exists n, 0 <= n /\ zget e n = Some 0xFF /\ forall j, 0 <= j < n -> zget e j <> Some 0xFF.
Proof.
  induction e as [|x t IH]; [intros []|].
  destruct (Z.eq_dec x 255) as [->|Hne].
  - intros _. exists 0. split; [lia|split; [reflexivity|lia]].
  - intros [->|Hin]; [contradiction|]. destruct (IH Hin) as (n & Hn & Hg & Hf).
    assert (G : forall j, 0 <= j -> zget (x :: t) (j + 1) = zget t j).
    { intros j Hj. unfold zget. destruct (Z.ltb_spec (j + 1) 0); [lia|]. destruct (Z.ltb_spec j 0); [lia|].
      replace (Z.to_nat (j + 1)) with (S (Z.to_nat j)) by lia. reflexivity. }
    exists (n + 1). split; [lia|split; [rewrite G by lia; exact Hg|]].
    intros j Hj. destruct (Z.eq_dec j 0) as [->|Hj0].
    + unfold zget; cbn. intros E; injection E as ->; contradiction.
    + replace j with (j - 1 + 1) by lia. rewrite G by lia. apply Hf; lia.
Qed.

Lemma pok_rom k : seven k -> pok (ERom k 0).
Proof.
  intros Hk. destruct Henvs as [HL HF].
  destruct (zget_in_range envs k) as [e He]; [rewrite HL; unfold seven in Hk; lia|].
  assert (Ht : terminated e) by (eapply Forall_zget; eassumption). destruct Ht as [_ Hin].
  destruct (first_end e Hin) as (n & Hn & Hg & Hf). exists e, n.
  split; [exact He|split; [lia|split; assumption]].
Qed.

Notation pk := (peek envs user).
Notation wk1 := (walk1 envs user).
Notation wk2 := (walk2 envs user).
Notation wk := (walk envs user).
Notation stl := (settle pal envs user).
Notation bth := (both pal).
Notation tno := (tone_of pal).

(** Fields the wk leaves alone. *)
Definition same (c d : psgchan) : Prop :=
  g_num d = g_num c /\ g_pitch d = g_pitch c /\ g_cents d = g_cents c /\ g_att d = g_att c /\ g_freq d = g_freq c /\
  g_on d = g_on c /\ g_vol d = g_vol c /\ g_vel d = g_vel c /\ g_env d = g_env c /\ g_rel d = g_rel c.
Lemma walk1_same c : same c (wk1 c).
Proof. unfold walk1. destruct (pk _); [|unfold same; tauto]. destruct (_ =? _); unfold same; cbn; tauto. Qed.
Lemma walk2_same c : same c (wk2 c).
Proof. unfold walk2. destruct (pk _); [|unfold same; tauto]. destruct (_ && _); unfold same; cbn; tauto. Qed.
Lemma same_trans a b c : same a b -> same b c -> same a c.
Proof. unfold same. intuition congruence. Qed.
Lemma walk_same c : same c (wk c).
Proof. eapply same_trans; [apply walk1_same|apply walk2_same]. Qed.

Definition ptrs_ok (c : psgchan) : Prop := pok (g_step c) /\ (is_null (g_loop c) = false -> pok (g_loop c)).
Lemma walk1_ptrs c : ptrs_ok c -> ptrs_ok (wk1 c).
Proof.
  intros [H1 H2]. unfold walk1. destruct (pk (g_step c)) as [b|] eqn:E; [|split; assumption].
  destruct (Z.eqb_spec b EEF_LOOP_START) as [->|]; [|split; assumption].
  assert (P : pok (pnext (g_step c))) by (eapply pok_next; [exact H1|exact E|discriminate]).
  split; cbn; auto.
Qed.
Lemma walk2_ptrs c : ptrs_ok c -> ptrs_ok (wk2 c).
Proof.
  intros [H1 H2]. unfold walk2. destruct (pk (g_step c)) as [b|] eqn:E; [|split; assumption].
  destruct (Z.eqb_spec b EEF_LOOP_END) as [->|]; [|split; assumption].
  destruct (is_null (g_loop c)) eqn:En; cbn [negb andb]; [split; [exact H1|congruence]|].
  assert (P : pok (pnext (g_step c))) by (eapply pok_next; [exact H1|exact E|discriminate]).
  split; cbn; [destruct (g_rel c); auto|auto].
Qed.
Lemma walk_ptrs c : ptrs_ok c -> ptrs_ok (wk c).
Proof. intros; apply walk2_ptrs, walk1_ptrs; assumption. Qed.

Lemma aes_exec c : vv_ok c -> ptrs_ok c ->
  apply_envelope_step pal envs user c = Done tt (fst (stl c)) (snd (stl c)).
Proof.
  intros Hv Hp. apply aes_eq; [exact Hv|apply pok_has, Hp|apply pok_has, walk1_ptrs, Hp|apply pok_has, walk_ptrs, Hp|].
  intros Hn. apply pok_has. exact (proj2 (walk_ptrs c Hp) Hn).
Qed.

(** ** Outputs of one channel *)
Definition crel (c : psgchan) (o : list event) (c' : psgchan) : Prop :=
  g_num c' = g_num c /\
  (forall e, In e o -> exists v, e = EvPsgAtt (g_num c) v \/ e = EvPsgTone (g_num c) v) /\
  chip_att (g_att c) o (g_num c) = g_att c' /\ chip_tone (g_freq c) o (g_num c) = g_freq c'.

Lemma crel_app a o b o' c : crel a o b -> crel b o' c -> crel a (o ++ o') c.
Proof.
  intros (H1 & H2 & H3 & H4) (K1 & K2 & K3 & K4). split; [congruence|split; [|split]].
  - intros e He. apply in_app_or in He. destruct He as [He|He]; [apply H2, He|]. rewrite <- H1. apply K2, He.
  - unfold chip_att in *. rewrite fold_left_app, H3, <- H1. exact K3.
  - unfold chip_tone in *. rewrite fold_left_app, H4, <- H1. exact K4.
Qed.
Lemma crel_nil c d : same c d -> crel c [] d.
Proof. unfold same, crel. intros (H1&H2&H3&H4&H5&_). split; [exact H1|split; [intros e []|]]. cbn. split; congruence. Qed.
Lemma crel_att c a : crel c (attev c a) (g_set_att c a).
Proof.
  unfold attev, crel. destruct (Z.eqb_spec a (g_att c)) as [->|]; cbn.
  - split; [reflexivity|split; [intros e []|]]. cbn. auto.
  - rewrite Z.eqb_refl. split; [reflexivity|split; [|auto]]. intros e [<-|[]]. eauto.
Qed.
Lemma crel_tone c a : crel c (tonev c a) (g_set_freq c a).
Proof.
  unfold tonev, crel. destruct (Z.eqb_spec a (g_freq c)) as [->|]; cbn.
  - split; [reflexivity|split; [intros e []|]]. cbn. auto.
  - rewrite Z.eqb_refl. split; [reflexivity|split; [|auto]]. intros e [<-|[]]. eauto.
Qed.
(** Only [g_num], [g_att] and [g_freq] matter. *)
Lemma crel_ext a o b a' b' : crel a o b -> g_num a' = g_num a -> g_att a' = g_att a -> g_freq a' = g_freq a ->
  g_num b' = g_num b -> g_att b' = g_att b -> g_freq b' = g_freq b -> crel a' o b'.
Proof. unfold crel. intros (H1&H2&H3&H4) -> -> -> -> -> ->. tauto. Qed.
Lemma crel_both c b : crel c (tonev c (tno b c) ++ attev c (level_of b c)) (bth b c).
Proof.
  unfold both. eapply crel_app; [apply crel_tone|].
  assert (H := crel_att (g_set_freq c (tno b c)) (level_of b c)). exact H.
Qed.
Lemma crel_silent c : crel c (attev c 15) (silent c).
Proof. eapply crel_ext; [apply (crel_att c 15)|reflexivity..]. Qed.

Lemma settle_rel c : crel c (snd (stl c)) (fst (stl c)).
Proof.
  assert (W := walk_same c).
  assert (X : forall o d, crel (wk c) o d -> crel c o d).
  { intros o d H. destruct W as (W1&W2&W3&W4&W5&_). eapply crel_ext; [exact H|congruence..]. }
  unfold settle. cbv zeta. destruct (pk (g_step (wk c))) as [b|]; [|apply crel_nil, W].
  destruct (b =? EEF_END); [|apply X, crel_both].
  destruct (_ && _); [|apply X, crel_silent].
  destruct (pk (g_loop (wk c))) as [b'|]; [|apply crel_nil, W].
  apply X. exact (crel_both (g_set_step (wk c) (g_loop (wk c))) b').
Qed.

(** ** Channel operations in closed form *)
Inductive cop := CNoteOn (p ce v : Z) | COff | CVol (v : Z) | CProg (p : Z) | CTick | CPitch (p ce : Z).

Definition cop_ok (op : cop) : Prop :=
  match op with
  | CNoteOn p ce v => 0 <= p < 256 /\ 0 <= ce < 100 /\ seven v
  | CVol v => seven v | CProg p => seven p
  | CPitch p ce => 0 <= p < 256 /\ 0 <= ce < 100
  | _ => True end.

Definition cfun (op : cop) : M psgchan unit :=
  match op with
  | CNoteOn p ce v => chan_note_on pal envs user userp p ce v
  | COff => chan_note_off
  | CVol v => chan_volume envs user v
  | CProg p => modify (fun c => g_set_env c p)
  | CTick => chan_tick pal envs user
  | CPitch p ce => chan_pitch pal envs user p ce
  end.

Definition start (p ce v : Z) (c : psgchan) : psgchan :=
  g_set_loop (g_set_step (g_set_on (g_set_vel (g_set_pc (g_set_rel c false) p ce) v) true)
    (if userp then EUser 0 else ERom (g_env c) 0)) ENull.
Definition advance (c : psgchan) : psgchan :=
  match pk (g_step c) with
  | Some b => if b =? EEF_END then c else g_set_step c (pnext (g_step c)) | None => c end.

Definition cexec (op : cop) (c : psgchan) : psgchan * list event :=
  match op with
  | CNoteOn p ce v => stl (start p ce v c)
  | COff => if g_on c then if is_null (g_loop c) then (silent c, attev c 15) else (g_set_rel c true, []) else (c, [])
  | CVol v => let d := g_set_vol c v in
      if g_on c then match pk (g_step c) with
        | Some b => (g_set_att d (level_of b d), attev d (level_of b d)) | None => (d, []) end else (d, [])
  | CProg p => (g_set_env c p, [])
  | CTick => if g_on c then stl (advance c) else (c, [])
  | CPitch p ce => let d := g_set_pc c p ce in
      match pk (g_step c) with
      | Some b => (g_set_freq d (tno b d), tonev d (tno b d)) | None => (d, []) end
  end.

Lemma user0_ok : userp = true -> pok (EUser 0).
Proof. intros H. cbn. destruct Hue as (_ & _ & K). specialize (K H). lia. Qed.

Lemma start_ptrs p ce v c : chok c -> ptrs_ok (start p ce v c).
Proof.
  intros (_ & He & _). split; cbn; [|discriminate].
  destruct userp eqn:E; [apply user0_ok; exact E|apply pok_rom; exact He].
Qed.
Lemma advance_ptrs c : ptrs_ok c -> ptrs_ok (advance c).
Proof.
  intros [H1 H2]. unfold advance. destruct (pk (g_step c)) as [b|] eqn:E; [|split; assumption].
  destruct (Z.eqb_spec b EEF_END) as [->|Hne]; [split; assumption|].
  split; cbn; [eapply pok_next; eassumption|exact H2].
Qed.
Lemma advance_same c : same c (advance c).
Proof. unfold advance. destruct (pk _); [|unfold same; tauto]. destruct (_ =? _); unfold same; cbn; tauto. Qed.

Lemma cexec_eq op c : cop_ok op -> chok c -> cfun op c = Done tt (fst (cexec op c)) (snd (cexec op c)).
Proof.
  intros Ho Hc. assert (Hv : vv_ok c) by apply Hc. assert (Hp : ptrs_ok c) by (split; apply Hc).
  assert (He : seven (g_env c)) by apply Hc.
  destruct op as [p ce v| |v|p| |p ce]; cbn [cfun cexec].
  - unfold chan_note_on, bind. cbn [modify].
    assert (Hi : forall d, seven (g_env d) -> init_envelope envs userp d =
       Done tt (g_set_loop (g_set_step d (if userp then EUser 0 else ERom (g_env d) 0)) ENull) []).
    { intros d Hd. unfold init_envelope, bind, get, rd. destruct userp; [reflexivity|].
      destruct (zget_in_range envs (g_env d)) as [e ->]; [|reflexivity].
      destruct Henvs as [-> _]. unfold seven in Hd. lia. }
    rewrite Hi by exact He. cbn [g_env g_set_on g_set_vel g_set_pc g_set_rel].
    assert (S := start_ptrs p ce v c Hc).
    match goal with |- context [apply_envelope_step pal envs user ?x] => change x with (start p ce v c) end.
    rewrite aes_exec; [reflexivity| |exact S].
    split; [apply Hv|apply Ho].
  - unfold chan_note_off, bind, get. destruct (g_on c); [|reflexivity]. cbn.
    destruct (is_null (g_loop c)); [|reflexivity]. cbn. rewrite psg_note_off_eq. reflexivity.
  - unfold chan_volume, bind, get, modify. cbn [g_on g_set_vol]. destruct (g_on c); [|reflexivity].
    destruct (pok_has _ (proj1 Hp)) as [b Hb]. rewrite Hb. unfold when.
    rewrite (eff_eq envs user (g_set_vol c v) b); [|split; [exact Ho|apply Hv]|exact Hb].
    rewrite apply_att_eq. reflexivity.
  - reflexivity.
  - unfold chan_tick, bind at 1, get. destruct (g_on c); [|reflexivity]. unfold when, increment_envelope_step.
    destruct (pok_has _ (proj1 Hp)) as [b Hb].
    assert (A : forall k : unit -> M psgchan unit, bind get (fun c1 => bind (deref envs user (g_step c1)) (fun b =>
       bind (if negb (b =? EEF_END) then modify (fun c => g_set_step c (pnext (g_step c))) else ret tt) k)) c
       = match k tt (advance c) with Done x s o => Done x s o | Fault f => Fault f end).
    { intros k. unfold bind, get. rewrite (deref_eq envs user _ _ _ Hb). unfold advance. rewrite Hb.
      destruct (b =? EEF_END); cbn; destruct (k tt _); reflexivity. }
    rewrite A. rewrite aes_exec; [reflexivity| |apply advance_ptrs, Hp].
    destruct (advance_same c) as (_&_&_&_&_&_&E1&E2&_). unfold vv_ok. rewrite E1, E2. exact Hv.
  - unfold chan_pitch, bind, modify. destruct (pok_has _ (proj1 Hp)) as [b Hb]. rewrite Hb.
    rewrite (envelope_tone_eq pal envs user (g_set_pc c p ce) b Hb). rewrite apply_tone_eq. reflexivity.
Qed.

Lemma cexec_rel op c : crel c (snd (cexec op c)) (fst (cexec op c)).
Proof.
  destruct op as [p ce v| |v|p| |p ce]; cbn [cexec].
  - eapply crel_ext; [apply (settle_rel (start p ce v c))|reflexivity..].
  - destruct (g_on c); [|apply crel_nil; unfold same; tauto]. destruct (is_null (g_loop c)); [apply crel_silent|].
    cbn [fst snd]. eapply crel_ext; [apply (crel_nil c c); unfold same; tauto|reflexivity..].
  - cbv zeta. assert (N : crel c [] (g_set_vol c v)) by (eapply crel_ext; [apply (crel_nil c c); unfold same; tauto|reflexivity..]).
    destruct (g_on c); [|exact N]. destruct (pk _); [|exact N]. cbn [fst snd].
    eapply crel_ext; [apply (crel_att (g_set_vol c v))|reflexivity..].
  - cbn [fst snd]. eapply crel_ext; [apply (crel_nil c c); unfold same; tauto|reflexivity..].
  - destruct (g_on c); [|apply crel_nil; unfold same; tauto].
    destruct (advance_same c) as (A1&A2&A3&A4&A5&_).
    eapply crel_ext; [apply (settle_rel (advance c))|congruence..].
  - cbv zeta. assert (N : crel c [] (g_set_pc c p ce)) by (eapply crel_ext; [apply (crel_nil c c); unfold same; tauto|reflexivity..]).
    destruct (pk _); [|exact N]. cbn [fst snd].
    eapply crel_ext; [apply (crel_tone (g_set_pc c p ce))|reflexivity..].
Qed.

Lemma shift_norm sh p c : 0 <= p < 256 -> 0 <= c < 100 ->
  0 <= pc_pitch (envelope_shift sh (mkPc p c)) <= 255 /\ 0 <= pc_cents (envelope_shift sh (mkPc p c)) < 100.
Proof.
  intros Hp Hc. unfold envelope_shift.
  assert (D : 0 <= pc_pitch (mkPc p c) <= 255 /\ 0 <= pc_cents (mkPc p c) < 100) by (cbn; lia).
  assert (N : forall a, 0 <= pc_pitch (pc_shift (mkPc p c) a) <= 255 /\ 0 <= pc_cents (pc_shift (mkPc p c) a) < 100)
    by (intros a; destruct (pc_shift_norm (mkPc p c) a); lia).
  assert (U : forall x, 0 <= pc_pitch (mkPc (u8 x) c) <= 255 /\ 0 <= pc_cents (mkPc (u8 x) c) < 100)
    by (intros x; cbn; unfold u8; lia).
  destruct sh as [|q|q]; auto.
  do 4 (destruct q as [q|q|]; auto).
Qed.

Lemma tone_of_range b c : 0 <= g_pitch c < 256 -> 0 <= g_cents c < 100 -> 0 < tno b c < 1024.
Proof.
  intros Hp Hc. unfold tone_of.
  destruct (shift_norm (u8 (Z.shiftr b 4)) _ _ Hp Hc) as [H1 H2].
  destruct (envelope_shift _ _) as [p' c']; cbn in H1, H2.
  destruct (tone_range pal p' c' H1 H2) as (x & -> & Hx). exact Hx.
Qed.

Lemma settle_ok c : vv_ok c -> seven (g_env c) -> ptrs_ok c -> 0 <= g_pitch c < 256 -> 0 <= g_cents c < 100 ->
  0 <= g_freq c < 1024 -> g_on c = true -> chok (fst (stl c)).
Proof.
  intros Hv He Hp Hpi Hce Hf Hon.
  assert (W := walk_same c). assert (P := walk_ptrs c Hp).
  unfold settle. cbv zeta. destruct (wk c) as [n pi ce at_ fr on vo ve en st lo re]. cbn in *.
  destruct W as (W1&W2&W3&W4&W5&W6&W7&W8&W9&W10). destruct P as [P1 P2]. cbn in *. subst.
  destruct (pok_has _ P1) as [b Hb]. rewrite Hb.
  assert (B : forall b st', pok st' -> chok (bth b (mkPsg (g_num c) (g_pitch c) (g_cents c) (g_att c) (g_freq c) (g_on c) (g_vol c) (g_vel c) (g_env c) st' lo (g_rel c)))).
  { intros b0 st' Hst. unfold chok, both, vv_ok in *. cbn.
    assert (T := tone_of_range b0 (mkPsg (g_num c) (g_pitch c) (g_cents c) (g_att c) (g_freq c) (g_on c) (g_vol c) (g_vel c) (g_env c) st' lo (g_rel c)) Hpi Hce).
    assert (L := level_range (g_vol c) (g_vel c) b0 (proj1 Hv) (proj2 Hv)).
    split; [exact Hv|split; [exact He|split; [exact Hst|split; [exact P2|split; [exact Hpi|split; [exact Hce|split; [exact L|split; [lia|]]]]]]]].
    rewrite Hon; discriminate. }
  destruct (b =? EEF_END); [|apply B; exact P1].
  destruct (is_null lo) eqn:El; cbn [negb andb].
  - unfold chok, silent, vv_ok in *; cbn.
    split; [exact Hv|split; [exact He|split; [exact P1|split; [congruence|split; [exact Hpi|split; [exact Hce|split; [lia|split; [exact Hf|auto]]]]]]]].
  - destruct (negb (g_rel c)).
    + specialize (P2 eq_refl). destruct (pok_has _ P2) as [b' Hb']. rewrite Hb'. cbn [fst]. apply B. exact P2.
    + unfold chok, silent, vv_ok in *; cbn.
      split; [exact Hv|split; [exact He|split; [exact P1|split; [auto|split; [exact Hpi|split; [exact Hce|split; [lia|split; [exact Hf|auto]]]]]]]].
Qed.

Lemma cexec_ok op c : cop_ok op -> chok c -> chok (fst (cexec op c)).
Proof.
  intros Ho Hc. assert (Hc' := Hc). destruct Hc' as (Hv & He & Hs & Hl & Hpi & Hce & Hat & Hfr & Hoff).
  assert (Hp : ptrs_ok c) by (split; assumption).
  destruct op as [p ce v| |v|p| |p ce]; cbn [cexec cop_ok] in *.
  - apply settle_ok; cbn; try tauto; try lia. + split; cbn; [apply Hv|tauto]. + apply start_ptrs; exact Hc.
  - destruct (g_on c) eqn:Eo; [|exact Hc]. destruct (is_null (g_loop c)) eqn:El; unfold chok, silent, vv_ok in *; cbn.
    + split; [exact Hv|split; [exact He|split; [exact Hs|split; [congruence|split; [exact Hpi|split; [exact Hce|split; [lia|split; [exact Hfr|auto]]]]]]]].
    + split; [exact Hv|split; [exact He|split; [exact Hs|split; [auto|split; [exact Hpi|split; [exact Hce|split; [exact Hat|split; [exact Hfr|congruence]]]]]]]].
  - destruct (g_on c) eqn:Eo.
    + destruct (pok_has _ Hs) as [b ->]. unfold chok, vv_ok in *; cbn.
      assert (L := level_range v (g_vel c) b Ho (proj2 Hv)).
      split; [tauto|split; [exact He|split; [exact Hs|split; [exact Hl|split; [exact Hpi|split; [exact Hce|split; [exact L|split; [exact Hfr|congruence]]]]]]]].
    + unfold chok, vv_ok in *; cbn.
      split; [tauto|split; [exact He|split; [exact Hs|split; [exact Hl|split; [exact Hpi|split; [exact Hce|split; [exact Hat|split; [exact Hfr|auto]]]]]]]].
  - unfold chok, vv_ok in *; cbn.
    split; [exact Hv|split; [exact Ho|split; [exact Hs|split; [exact Hl|split; [exact Hpi|split; [exact Hce|split; [exact Hat|split; [exact Hfr|auto]]]]]]]].
  - destruct (g_on c) eqn:Eo; [|exact Hc].
    destruct (advance_same c) as (A1&A2&A3&A4&A5&A6&A7&A8&A9&A10).
    apply settle_ok; rewrite ?A2, ?A3, ?A5, ?A6, ?A9; auto; [|apply advance_ptrs; exact Hp].
    unfold vv_ok; rewrite A7, A8; exact Hv.
  - destruct (pok_has _ Hs) as [b ->]. unfold chok, vv_ok in *; cbn.
    assert (T := tone_of_range b (g_set_pc c p ce) ltac:(cbn; tauto) ltac:(cbn; tauto)).
    split; [exact Hv|split; [exact He|split; [exact Hs|split; [exact Hl|split; [tauto|split; [tauto|split; [exact Hat|split; [lia|auto]]]]]]]].
Qed.
End Inv.
