(** Lemmas behind the synthesizer property theorems. *)
From Verif Require Import Base BaseLemmas SynthModel SynthSpec SynthProofs SynthMirrorProofs.

(** ** Levels *)
Lemma table_len : length VOLUME_TO_TOTAL_LEVELS = 128%nat.
Proof. reflexivity. Qed.

Definition vtl (v : Z) : Z := nth (Z.to_nat v) VOLUME_TO_TOTAL_LEVELS 127.

Lemma vtl_range v : 0 <= v < 128 -> 0 <= vtl v <= 127.
Proof.
  intros H.
  assert (A : allb 0 128 (fun v => (0 <=? vtl v) && (vtl v <=? 127)) = true) by (vm_compute; reflexivity).
  assert (B := allb_spec _ _ _ A v). cbv beta in B. lia.
Qed.

Lemma vtl_step v : 0 <= v < 127 -> vtl (v + 1) <= vtl v.
Proof.
  intros H.
  assert (A : allb 0 127 (fun v => vtl (v + 1) <=? vtl v) = true) by (vm_compute; reflexivity).
  assert (B := allb_spec _ _ _ A v). cbv beta in B. lia.
Qed.

Lemma vtl_antitone v w : 0 <= v -> v <= w -> w < 128 -> vtl w <= vtl v.
Proof.
  intros Hv Hvw Hw.
  replace w with (v + Z.of_nat (Z.to_nat (w - v))) in * by lia.
  revert Hw. generalize (Z.to_nat (w - v)). clear Hvw w.
  induction n as [|n IH]; intros Hw; [replace (v + Z.of_nat 0) with v by lia; lia|].
  assert (St := vtl_step (v + Z.of_nat n)).
  replace (v + Z.of_nat (S n)) with (v + Z.of_nat n + 1) by lia. lia.
Qed.

Lemma muldiv_range x y : 0 <= x <= 127 -> 0 <= y <= 127 -> 0 <= x * y / 127 <= 127.
Proof.
  intros Hx Hy. split.
  - apply Z.div_pos; nia.
  - apply Z.div_le_upper_bound; nia.
Qed.

Lemma adjust_scaled v tl : 0 <= v < 128 -> 0 <= tl < 128 ->
  adjust_total_level (vtl v) tl = scaled_level v tl.
Proof.
  intros Hv Ht. assert (R := vtl_range v Hv).
  unfold adjust_total_level, scaled_level. fold (vtl v).
  assert (E1 : u8 (127 - vtl v) = 127 - vtl v) by (unfold u8; apply Z.mod_small; lia).
  assert (E2 : u8 (127 - tl) = 127 - tl) by (unfold u8; apply Z.mod_small; lia).
  rewrite E1, E2. assert (B := muldiv_range (127 - tl) (127 - vtl v)).
  unfold u8. rewrite (Z.mod_small (_ / 127)) by lia. apply Z.mod_small. lia.
Qed.

Lemma scaled_range v tl : 0 <= v < 128 -> 0 <= tl < 128 -> tl <= scaled_level v tl < 128.
Proof.
  intros Hv Ht. assert (R := vtl_range v Hv). unfold scaled_level. fold (vtl v).
  assert (B := muldiv_range (127 - tl) (127 - vtl v)).
  assert ((127 - tl) * (127 - vtl v) / 127 <= 127 - tl) by (apply Z.div_le_upper_bound; nia). lia.
Qed.

Lemma scaled_full tl : scaled_level 127 tl = tl.
Proof. unfold scaled_level. change (nth (Z.to_nat 127) VOLUME_TO_TOTAL_LEVELS 127) with 0.
  rewrite Z.sub_0_r, Z.div_mul by lia. lia. Qed.

Lemma scaled_zero tl : scaled_level 0 tl = 127.
Proof. unfold scaled_level. change (nth (Z.to_nat 0) VOLUME_TO_TOTAL_LEVELS 127) with 127.
  replace ((127 - tl) * (127 - 127)) with 0 by lia. reflexivity. Qed.

Lemma scaled_louder v w tl : 0 <= v -> v <= w -> w < 128 -> 0 <= tl < 128 ->
  scaled_level w tl <= scaled_level v tl.
Proof.
  intros Hv Hvw Hw Ht. unfold scaled_level. fold (vtl v) (vtl w).
  assert (A := vtl_antitone v w Hv Hvw Hw).
  assert (Rv := vtl_range v). assert (Rw := vtl_range w).
  assert ((127 - tl) * (127 - vtl v) / 127 <= (127 - tl) * (127 - vtl w) / 127)
    by (apply Z.div_le_mono; nia). lia.
Qed.

Lemma carrier_spec alg o : 0 <= alg < 8 -> is_op o -> is_output_operator alg o = is_carrier alg o.
Proof.
  intros Ha Ho.
  assert (A : alg = 0 \/ alg = 1 \/ alg = 2 \/ alg = 3 \/ alg = 4 \/ alg = 5 \/ alg = 6 \/ alg = 7) by lia.
  destruct (op_cases o Ho) as [-> | [-> | [-> | ->]]];
  destruct A as [-> | [-> | [-> | [-> | [-> | [-> | [-> | ->]]]]]]]; reflexivity.
Qed.

Lemma level_expected s c o tl : synth_ok s -> is_ch c -> is_op o -> 0 <= tl < 128 ->
  level s c o tl = expected_level (c_alg (chn s c)) (vol s c) o tl.
Proof.
  intros Hs Hc Ho Ht. unfold level, expected_level.
  assert (Ha : 0 <= c_alg (chn s c) < 8) by apply (chn_ok s Hs c Hc).
  rewrite carrier_spec by assumption.
  destruct (is_carrier _ _); [|reflexivity]. apply adjust_scaled; [apply vol_ok|]; assumption.
Qed.

Lemma expected_range alg v o tl : 0 <= v < 128 -> 0 <= tl < 128 -> 0 <= expected_level alg v o tl < 128.
Proof. intros. unfold expected_level. destruct (is_carrier _ _); [|lia]. assert (H1 := scaled_range v tl). lia. Qed.

(** ** Decoding the mirrored registers *)
Lemma fld_some r p g d lo w : r p g = Some d -> fld r p g lo w = Some ((d / 2 ^ lo) mod 2 ^ w).
Proof. intros H; unfold fld; rewrite H; reflexivity. Qed.

Lemma decode_op X s r c o : synth_ok s -> is_ch c -> is_op o -> mir X s r ->
  (forall g, g <> GTl -> X (KOp g c o)) -> op_mirrored r c o (opr s c o).
Proof.
  intros Hs Hc Ho Hm HX. destruct (opr_ok s c o Hs Hc Ho) as (H1&H2&H3&H4&H5&H6&H7&H8&H9&H10&H11).
  assert (K : forall g, key_ok (KOp g c o)) by (intros; split; assumption).
  assert (M1 := Hm (KOp GMul c o) (K _) (HX GMul ltac:(discriminate))).
  assert (M2 := Hm (KOp GAr c o) (K _) (HX GAr ltac:(discriminate))).
  assert (M3 := Hm (KOp GDr c o) (K _) (HX GDr ltac:(discriminate))).
  assert (M4 := Hm (KOp GSr c o) (K _) (HX GSr ltac:(discriminate))).
  assert (M5 := Hm (KOp GRr c o) (K _) (HX GRr ltac:(discriminate))).
  assert (M6 := Hm (KOp GSsg c o) (K _) (HX GSsg ltac:(discriminate))).
  cbn [addr fst snd gbase enc] in M1, M2, M3, M4, M5, M6. cbv zeta in M1, M2, M3, M4, M5, M6.
  set (x := opr s c o) in *. clearbody x.
  rewrite !shl_mul in * by lia. pow.
  unfold op_mirrored, chip_mul, chip_dt, chip_ar, chip_rs, chip_dr, chip_am, chip_sr, chip_rr, chip_sl, chip_ssg.
  rewrite (fld_some _ _ _ _ 0 4 M1), (fld_some _ _ _ _ 4 3 M1), (fld_some _ _ _ _ 0 5 M2), (fld_some _ _ _ _ 6 2 M2),
    (fld_some _ _ _ _ 0 5 M3), (fld_some _ _ _ _ 7 1 M3), (fld_some _ _ _ _ 0 5 M4), (fld_some _ _ _ _ 0 4 M5),
    (fld_some _ _ _ _ 4 4 M5), (fld_some _ _ _ _ 0 4 M6).
  clear M1 M2 M3 M4 M5 M6 Hm. pow. unfold u8.
  repeat match goal with |- _ /\ _ => split end; f_equal; lia.
Qed.

Lemma decode_chan X s r c : synth_ok s -> is_ch c -> mir X s r ->
  X (KAlg c) -> X (KSt c) -> (forall g o, is_op o -> g <> GTl -> X (KOp g c o)) ->
  chan_mirrored r c (chn s c).
Proof.
  intros Hs Hc Hm H1 H2 H3. unfold chan_mirrored.
  assert (M1 := Hm (KAlg c) Hc H1). assert (M2 := Hm (KSt c) Hc H2).
  destruct (chn_ok s Hs c Hc) as (A1&A2&A3&A4&A5&A6&A7&A8&A9).
  assert (OPS : forall o, 0 <= o < 4 -> exists y, zget (c_ops (chn s c)) o = Some y /\ op_mirrored r c o y).
  { intros o Ho. exists (opr s c o). split; [apply zget_oper; [apply chn_ok; assumption|exact Ho]|].
    apply (decode_op X); auto. }
  cbn [addr fst snd enc] in M1, M2.
  rewrite !shl_mul in * by lia. pow.
  unfold chip_alg, chip_fb, chip_st, chip_ams, chip_fms.
  rewrite (fld_some _ _ _ _ 0 3 M1), (fld_some _ _ _ _ 3 3 M1), (fld_some _ _ _ _ 6 2 M2),
    (fld_some _ _ _ _ 4 2 M2), (fld_some _ _ _ _ 0 3 M2). pow. unfold u8.
  split; [f_equal; lia|]. split; [f_equal; lia|]. split; [f_equal; lia|]. split; [f_equal; lia|].
  split; [f_equal; lia|]. exact OPS.
Qed.

Lemma decode_tl X s r c o : synth_ok s -> is_ch c -> is_op o -> mir X s r -> X (KOp GTl c o) ->
  chip_tl r c o = Some (expected_level (c_alg (chn s c)) (vol s c) o (o_tl (opr s c o))).
Proof.
  intros Hs Hc Ho Hm HX.
  assert (M1 := Hm (KOp GTl c o) (conj Hc Ho) HX). cbn [addr fst snd gbase enc] in M1. cbv zeta in M1.
  assert (Ht : 0 <= o_tl (opr s c o) < 128) by apply (opr_ok s c o Hs Hc Ho).
  rewrite level_expected in M1 by assumption.
  unfold chip_tl. rewrite (fld_some _ _ _ _ 0 7 M1). f_equal. pow.
  assert (R := expected_range (c_alg (chn s c)) (vol s c) o (o_tl (opr s c o)) (vol_ok s Hs c Hc) Ht).
  unfold u8. lia.
Qed.

Lemma decode_global X s r : synth_ok s -> mir X s r -> X KLfo -> X KMode -> X KDac -> global_mirrored r s.
Proof.
  intros (A1 & A2 & _) Hm H1 H2 H3.
  assert (M1 := Hm KLfo I H1). assert (M2 := Hm KMode I H2). assert (M3 := Hm KDac I H3).
  cbn [addr fst snd enc] in M1, M2, M3.
  rewrite lor_add_low in M1 by (pow; lia). rewrite shl_mul in M2 by lia.
  unfold global_mirrored, chip_lfoen, chip_lfofreq, chip_special, chip_dac.
  rewrite (fld_some _ _ _ _ 3 1 M1), (fld_some _ _ _ _ 0 3 M1), (fld_some _ _ _ _ 6 1 M2), (fld_some _ _ _ _ 7 1 M3).
  pow. unfold u8. split; [f_equal; lia|]. split; [f_equal; lia|].
  split; [destruct (s_special s); reflexivity|destruct (s_dac s); reflexivity].
Qed.

(** ** C13 *)
Definition base_key (k : key) : Prop := not_pitch k /\ forall c o, k <> KOp GTl c o.

Lemma base_stale op k : no_raw_clash op -> key_ok k -> base_key k -> (forall p, op <> SInit p) -> ~ stale op k.
Proof.
  intros Hr Hk [Hp Ht] Hni Hs.
  destruct op; cbn [stale no_raw_clash] in *; try contradiction.
  - eapply Hni; reflexivity.
  - destruct Hs as [o ->]. eapply Ht; reflexivity.
  - destruct (Hp c); destruct Hs; contradiction.
  - subst. eapply Ht; reflexivity.
  - apply Hr. assert (A := addr_managed k Hk). rewrite Hs in A. exact A.
Qed.

Lemma init_dec op : (exists p, op = SInit p) \/ (forall p, op <> SInit p).
Proof. destruct op; [left; eauto|right; discriminate..]. Qed.

Lemma c13_step (X : key -> Prop) op s tr o : (forall k, X k -> base_key k \/ exists c o, k = KOp GTl c o) ->
  (forall k, key_ok k -> X k -> (forall p, op <> SInit p) -> ~ stale op k) ->
  mir X s (ym_regs tr) -> synth_ok s -> sop_ok op -> ymw o = writes op s ->
  mir X (post op s) (ym_regs (tr ++ o)).
Proof.
  intros HXb HX Hm Hs Ho W. rewrite ym_regs_app, W.
  destruct (init_dec op) as [[p ->]|Hni].
  - eapply mir_weaken; [|apply mir_init; assumption].
    intros k Hk. destruct (HXb k Hk) as [[Hp _]|(c & oo & ->)]; [exact Hp|]. intros c'; split; discriminate.
  - intros k Hk HXk. apply (mir_post X op s _ Hs Ho Hni Hm k Hk). left; split; auto.
Qed.

Lemma c13_run p ops : preset_ok p -> Forall sop_ok ops -> Forall no_raw_clash ops ->
  exists s tr, synth_run (SInit p :: ops) synth0 = Done tt s tr /\ synth_ok s /\
    mir base_key s (ym_regs tr).
Proof.
  intros Hp Ho Hr.
  apply (run_from_init no_raw_clash (fun s tr => mir base_key s (ym_regs tr))); auto.
  - apply synth0_ok.
  - intros o _ W _. change o with ([] ++ o). rewrite ym_regs_app, W.
    eapply mir_weaken; [|apply mir_init; [apply synth0_ok|exact Hp]]. intros k [Hk _]; exact Hk.
  - intros op s tr o Hm Hs Hop Hside _ W _.
    eapply c13_step; eauto. intros k Hk HX Hni. apply base_stale; auto.
Qed.

Lemma base_alg c : base_key (KAlg c). Proof. split; [intros c'; split|]; discriminate. Qed.
Lemma base_st c : base_key (KSt c). Proof. split; [intros c'; split|]; discriminate. Qed.
Lemma base_op g c o : g <> GTl -> base_key (KOp g c o).
Proof. intros H; split; [intros c'; split; discriminate|]. intros c' o' E; inversion E; contradiction. Qed.

Lemma c13_parameters p ops s tr : preset_ok p -> Forall sop_ok ops -> Forall no_raw_clash ops ->
  synth_run (SInit p :: ops) synth0 = Done tt s tr ->
  global_mirrored (ym_regs tr) s /\
  forall c, is_ch c -> exists ch, zget (s_chans s) c = Some ch /\ chan_mirrored (ym_regs tr) c ch.
Proof.
  intros Hp Ho Hr E. destruct (c13_run p ops Hp Ho Hr) as (s' & tr' & E' & Hs & Hm).
  rewrite E in E'; inversion E'; subst s' tr'. split.
  - apply (decode_global base_key); auto; (split; [intros c'; split|]; discriminate).
  - intros c Hc. exists (chn s c). split; [apply zget_chn; assumption|].
    apply (decode_chan base_key); auto using base_alg, base_st. intros; apply base_op; assumption.
Qed.

Lemma synth_total ops s : Forall sop_ok ops -> synth_ok s ->
  exists s' o, synth_run ops s = Done tt s' o /\ synth_ok s'.
Proof.
  intros Ho Hs.
  destruct (run_ind (fun _ => True) (fun _ _ => True) (fun _ _ _ _ _ _ _ _ _ _ _ => I) ops s []) as (s' & o & E & H & _); auto.
  - apply Forall_forall; auto.
  - eauto.
Qed.

Lemma c13_levels p ops s tr : preset_ok p -> Forall sop_ok ops -> Forall no_raw_clash ops -> Forall level_safe ops ->
  synth_run (SInit p :: ops) synth0 = Done tt s tr ->
  forall c o, is_ch c -> is_op o -> exists ch x v,
    zget (s_chans s) c = Some ch /\ zget (c_ops ch) o = Some x /\ zget (s_vols s) c = Some v /\
    chip_tl (ym_regs tr) c o = Some (expected_level (c_alg ch) v o (o_tl x)).
Proof.
  intros Hp Ho Hr Hl E c o Hc Hop.
  set (X := fun k => exists c o, k = KOp GTl c o).
  destruct (run_from_init (fun op => no_raw_clash op /\ level_safe op) (fun s tr => mir X s (ym_regs tr)) p ops synth0)
    as (s' & tr' & E' & Hs & Hm); auto.
  - apply synth0_ok.
  - rewrite Forall_forall in *. intros op Hin. split; auto.
  - intros oo _ W _. change oo with ([] ++ oo). rewrite ym_regs_app, W.
    eapply mir_weaken; [|apply mir_init; [apply synth0_ok|exact Hp]].
    intros k (c1 & o1 & ->) c'; split; discriminate.
  - intros op s1 tr1 o1 Hm Hs Hop1 [Hr1 Hl1] _ W _.
    eapply c13_step; [| |exact Hm|exact Hs|exact Hop1|exact W].
    + intros k Hk; right; exact Hk.
    + intros k Hk (c1 & o2 & ->) Hni Hst.
      destruct op; cbn [stale no_raw_clash level_safe] in *; try contradiction.
      * eapply Hni; reflexivity.
      * destruct Hst; discriminate.
      * apply Hr1. assert (A := addr_managed _ Hk). rewrite Hst in A. exact A.
  - rewrite E in E'; inversion E'; subst s' tr'.
    exists (chn s c), (opr s c o), (vol s c).
    split; [apply zget_chn; assumption|]. split; [apply zget_oper; [apply chn_ok|]; assumption|].
    split; [apply zget_vol; assumption|]. apply (decode_tl X); auto. exists c, o; reflexivity.
Qed.

(** ** C14: what restores the level of a channel *)
Lemma flush_levels op s tr o c : synth_ok s -> sop_ok op -> (forall p, op <> SInit p) ->
  synth_step op s = Done tt (post op s) o -> ymw o = writes op s -> is_ch c ->
  (forall oo, is_op oo -> In (KOp GTl c oo) (fkeys op s)) ->
  forall oo, is_op oo -> chip_tl (ym_regs (tr ++ o)) c oo =
    Some (expected_level (c_alg (chn (post op s) c)) (vol (post op s) c) oo (o_tl (opr (post op s) c oo))).
Proof.
  intros Hs Hop Hni E W Hc HK oo Hoo.
  apply (decode_tl (fun k => In k (fkeys op s))); auto; [apply post_ok; assumption|].
  rewrite ym_regs_app, W.
  assert (M0 : mir (fun _ => False) s (ym_regs tr)) by (intros k _ []).
  eapply mir_weaken; [|apply (mir_post _ op s _ Hs Hop Hni M0)]. intros k Hk; right; exact Hk.
Qed.

Lemma in_tl_chankeys c o : is_op o -> In (KOp GTl c o) (chankeys c).
Proof. intros H; destruct (op_cases o H) as [-> | [-> | [-> | ->]]]; cbn; tauto. Qed.

Lemma c14_preset s tr c p : synth_ok s -> is_ch c -> preset_ok p ->
  exists s' o v, synth_preset c p s = Done tt s' o /\ zget (s_vols s) c = Some v /\
    forall oo x, is_op oo -> zget (p_ops p) oo = Some x ->
      chip_tl (ym_regs (tr ++ o)) c oo = Some (expected_level (p_alg p) v oo (o_tl x)).
Proof.
  intros Hs Hc Hp.
  destruct (step_runs (SPreset c p) s Hs (conj Hc Hp)) as (o & E & W & _).
  exists (post (SPreset c p) s), o, (vol s c). split; [exact E|]. split; [apply zget_vol; assumption|].
  intros oo x Hoo Hx.
  rewrite (flush_levels (SPreset c p) s tr o c Hs (conj Hc Hp)); auto; try discriminate.
  - cbn [post]. unfold opr. rewrite chn_same by assumption.
    change (vol (set_ch s c (preset_to_channel p (c_st (chn s c)))) c) with (vol s c).
    unfold oper, preset_to_channel; cbn [c_alg c_ops].
    destruct Hp as (Ha & _ & _ & _ & Hl & _).
    rewrite (zget_nth (p_ops p) oo op0) in Hx by (rewrite Hl; exact Hoo). inversion Hx; subst.
    unfold bits. pow. rewrite Z.mod_small by lia. reflexivity.
  - intros; apply in_tl_chankeys; assumption.
Qed.

Lemma c14_volume s tr c v : synth_ok s -> is_ch c -> 0 <= v < 128 -> zget (s_vols s) c <> Some v ->
  exists s' o, synth_volume c v s = Done tt s' o /\
    forall oo, is_op oo -> exists ch x, zget (s_chans s) c = Some ch /\ zget (c_ops ch) oo = Some x /\
      chip_tl (ym_regs (tr ++ o)) c oo = Some (expected_level (c_alg ch) v oo (o_tl x)).
Proof.
  intros Hs Hc Hv Hne.
  destruct (step_runs (SVolume c v) s Hs (conj Hc Hv)) as (o & E & W & _).
  exists (post (SVolume c v) s), o. split; [exact E|].
  intros oo Hoo. exists (chn s c), (opr s c oo).
  split; [apply zget_chn; assumption|]. split; [apply zget_oper; [apply chn_ok|]; assumption|].
  rewrite (zget_vol s Hs c Hc) in Hne.
  assert (Q : (vol s c =? v) = false) by (destruct (Z.eqb_spec (vol s c) v); [congruence|reflexivity]).
  rewrite (flush_levels (SVolume c v) s tr o c Hs (conj Hc Hv)); auto; try discriminate.
  - cbn [post]. rewrite Q. rewrite vol_set_vol, Z.eqb_refl by assumption. reflexivity.
  - intros o' Ho'. cbn [fkeys]. rewrite Q. apply in_map_iff. exists o'. split; [reflexivity|].
    destruct (op_cases o' Ho') as [-> | [-> | [-> | ->]]]; cbn; tauto.
Qed.

(** Changing the algorithm: in force if it was, and the set of carriers does
    not change or the channel is at full volume. *)
Lemma c14_algorithm s tr c a : synth_ok s -> is_ch c -> is_u8 a ->
  forall ch v, zget (s_chans s) c = Some ch -> zget (s_vols s) c = Some v ->
  (forall oo x, is_op oo -> zget (c_ops ch) oo = Some x ->
     chip_tl (ym_regs tr) c oo = Some (expected_level (c_alg ch) v oo (o_tl x))) ->
  (v = 127 \/ forall oo, is_op oo -> (carrier (c_alg ch) oo <-> carrier (a mod 8) oo)) ->
  exists s' o, synth_algorithm c a s = Done tt s' o /\
    forall oo x, is_op oo -> zget (c_ops ch) oo = Some x ->
      chip_tl (ym_regs (tr ++ o)) c oo = Some (expected_level (a mod 8) v oo (o_tl x)).
Proof.
  intros Hs Hc Ha ch v Hch Hv Hin Hcond.
  rewrite (zget_chn s Hs c Hc) in Hch; inversion Hch; subst ch. clear Hch.
  rewrite (zget_vol s Hs c Hc) in Hv; inversion Hv; subst v. clear Hv.
  destruct (step_runs (SAlgorithm c a) s Hs (conj Hc Ha)) as (o & E & W & _).
  exists (post (SAlgorithm c a) s), o. split; [exact E|].
  intros oo x Hoo Hx. unfold chip_tl, fld. rewrite ym_regs_app, W. cbn [writes post fkeys flush map].
  rewrite rrun_other.
  - replace (expected_level (a mod 8) (vol s c) oo (o_tl x)) with (expected_level (c_alg (chn s c)) (vol s c) oo (o_tl x)).
    + exact (Hin oo x Hoo Hx).
    + unfold expected_level. destruct Hcond as [->|Hcond].
      * rewrite !scaled_full. destruct (is_carrier _ _), (is_carrier _ _); reflexivity.
      * assert (B : is_carrier (c_alg (chn s c)) oo = is_carrier (a mod 8) oo).
        { apply eq_true_iff_eq. unfold is_carrier. rewrite !existsb_exists.
          assert (G : forall l, (exists y, In y l /\ (oo =? y) = true) <-> In oo l).
          { intros l; split; [intros (y & Hy & Q); apply Z.eqb_eq in Q; subst; exact Hy|].
            intros Hy; exists oo; split; [exact Hy|apply Z.eqb_refl]. }
          rewrite !G. apply Hcond; exact Hoo. }
        rewrite B; reflexivity.
  - intros w [<-|[]] Q. cbn [fst wk] in Q.
    change (part_of c, oper_reg 64 c oo) with (addr (KOp GTl c oo)) in Q.
    apply addr_inj in Q; [discriminate|exact Hc|split; assumption].
Qed.

(** ** C15 *)
Lemma c15_load s c p : synth_ok s -> is_ch c -> preset_ok p ->
  exists s' o, synth_preset c p s = Done tt s' o /\
    synth_extract_preset c s' = Done p s' [] /\
    (forall c', c' <> c -> zget (s_chans s') c' = zget (s_chans s) c') /\
    s_vols s' = s_vols s /\
    (forall ch ch', zget (s_chans s) c = Some ch -> zget (s_chans s') c = Some ch' -> c_st ch' = c_st ch).
Proof.
  intros Hs Hc Hp.
  destruct (step_runs (SPreset c p) s Hs (conj Hc Hp)) as (o & E & W & _).
  exists (post (SPreset c p) s), o. split; [exact E|].
  assert (Hs' : synth_ok (post (SPreset c p) s)) by (apply post_ok; [exact Hs|split; assumption]).
  split; [|split; [|split]].
  - unfold synth_extract_preset. unfold get_chan, get, bind, rd.
    rewrite (zget_chn _ Hs' c Hc). cbn [post]. rewrite chn_same by assumption.
    destruct p as [a f m n l]. destruct Hp as (H1&H2&H3&H4&H5&H6). cbn in *.
    unfold preset_to_channel, bits, ret; cbn. pow. rewrite !Z.mod_small by lia. reflexivity.
  - intros c' Hne. cbn. apply zget_zset_other. auto.
  - reflexivity.
  - intros ch ch' H1 H2. rewrite (zget_chn _ Hs' c Hc) in H2. inversion H2; subst ch'.
    rewrite (zget_chn _ Hs c Hc) in H1. inversion H1; subst ch.
    cbn [post]. rewrite chn_same by assumption. cbn.
    assert (Hst : 0 <= c_st (chn s c) < 4) by apply (chn_ok s Hs c Hc).
    unfold bits; pow. apply Z.mod_small; exact Hst.
Qed.

(** The chip ends up with the preset. *)
Lemma c15_chip s tr c p : synth_ok s -> is_ch c -> preset_ok p ->
  exists s' o, synth_preset c p s = Done tt s' o /\
    chip_alg (ym_regs (tr ++ o)) c = Some (p_alg p) /\ chip_fb (ym_regs (tr ++ o)) c = Some (p_fb p) /\
    chip_ams (ym_regs (tr ++ o)) c = Some (p_ams p) /\ chip_fms (ym_regs (tr ++ o)) c = Some (p_fms p) /\
    forall oo x, is_op oo -> zget (p_ops p) oo = Some x -> op_mirrored (ym_regs (tr ++ o)) c oo x.
Proof.
  intros Hs Hc Hp.
  destruct (step_runs (SPreset c p) s Hs (conj Hc Hp)) as (o & E & W & _).
  exists (post (SPreset c p) s), o. split; [exact E|].
  assert (Hs' : synth_ok (post (SPreset c p) s)) by (apply post_ok; [exact Hs|split; assumption]).
  assert (M0 : mir (fun _ => False) s (ym_regs tr)) by (intros k _ []).
  assert (M : mir (fun k => In k (chankeys c)) (post (SPreset c p) s) (ym_regs (tr ++ o))).
  { rewrite ym_regs_app, W. eapply mir_weaken; [|apply (mir_post _ (SPreset c p) s _ Hs (conj Hc Hp) ltac:(discriminate) M0)].
    intros k Hk; right; exact Hk. }
  assert (D : chan_mirrored (ym_regs (tr ++ o)) c (chn (post (SPreset c p) s) c)).
  { apply (decode_chan (fun k => In k (chankeys c))); auto; try (cbn; tauto).
    intros g oo Ho _. destruct (op_cases oo Ho) as [-> | [-> | [-> | ->]]], g; cbn; tauto. }
  cbn [post] in D. rewrite chn_same in D by assumption.
  destruct Hp as (H1&H2&H3&H4&H5&H6).
  destruct D as (D1 & D2 & D3 & D4 & D5 & D6). unfold preset_to_channel in *; cbn [c_alg c_fb c_ams c_fms c_ops] in *.
  unfold bits in *. pow. rewrite Z.mod_small in D1, D2, D4, D5 by lia.
  split; [exact D1|]. split; [exact D2|]. split; [exact D4|]. split; [exact D5|].
  intros oo x Hoo Hx. destruct (D6 oo Hoo) as (y & Hy & Dy). congruence.
Qed.

(** ** C12: a setter puts its value in its chip field *)
Lemma flushed_reg op s tr o k : synth_ok s -> sop_ok op -> (forall p, op <> SInit p) ->
  ymw o = writes op s -> In k (fkeys op s) ->
  ym_regs (tr ++ o) (fst (addr k)) (snd (addr k)) = Some (enc (post op s) k).
Proof.
  intros Hs Hop Hni W Hk. rewrite ym_regs_app, W.
  assert (M0 : mir (fun _ => False) s (ym_regs tr)) by (intros k0 _ []).
  apply (mir_post _ op s _ Hs Hop Hni M0); [eapply fkeys_ok; eassumption|right; exact Hk].
Qed.

Lemma oset_opr s c o x : synth_ok s -> is_ch c -> is_op o ->
  opr (set_ch s c (set_op (chn s c) o x)) c o = x.
Proof. intros. rewrite opr_set_op, Z.eqb_refl by assumption. reflexivity. Qed.

Lemma c12_set_field op s tr rdr v : synth_ok s -> sop_ok op -> set_field op = Some (rdr, v) ->
  exists s' o, synth_step op s = Done tt s' o /\ rdr (ym_regs (tr ++ o)) = Some v.
Proof.
  intros Hs Hop HF.
  destruct (step_runs op s Hs Hop) as (o & E & W & _).
  exists (post op s), o. split; [exact E|].
  assert (Hs' := post_ok op s Hs Hop).
  destruct op; cbn [set_field sop_ok fkeys] in *; try discriminate; injection HF as <- <-;
  try (match type of Hop with is_ch _ /\ _ => destruct Hop as [Hc Hop] end);
  try (match type of Hop with is_op _ /\ _ => destruct Hop as [Ho Hop] end).
  1-5: match type of E with synth_step ?op _ = _ =>
    let k := (match op with SAlgorithm _ _ => constr:(KAlg c) | SFeedback _ _ => constr:(KAlg c) | _ => constr:(KSt c) end) in
    assert (M := flushed_reg op s tr o k Hs (conj Hc Hop) ltac:(discriminate) W ltac:(cbn; tauto)) end;
    destruct (chn_ok _ Hs' c Hc) as (A1&A2&A3&A4&A5&A6&A7&A8&A9);
    cbn [post addr fst snd enc] in *; rewrite chn_same in * by assumption;
    unfold chip_alg, chip_fb, chip_st, chip_ams, chip_fms; rewrite (fld_some _ _ _ _ _ _ M); f_equal;
    rewrite !shl_mul in * by lia; cbn [c_alg c_fb c_st c_ams c_fms ch_set_alg ch_set_fb ch_set_st ch_set_ams ch_set_fms] in *;
    unfold bits, u8 in *; pow; lia.
  1-10: match type of E with synth_step ?op _ = _ =>
    let k := (match op with SMultiple _ _ _ => constr:(KOp GMul c o0) | SDetune _ _ _ => constr:(KOp GMul c o0)
      | SRateScaling _ _ _ => constr:(KOp GAr c o0) | SAttackRate _ _ _ => constr:(KOp GAr c o0)
      | SDecayRate _ _ _ => constr:(KOp GDr c o0) | SAmpMod _ _ _ => constr:(KOp GDr c o0)
      | SSustainRate _ _ _ => constr:(KOp GSr c o0) | SSsgEg _ _ _ => constr:(KOp GSsg c o0)
      | _ => constr:(KOp GRr c o0) end) in
    assert (M := flushed_reg op s tr o k Hs (conj Hc (conj Ho Hop)) ltac:(discriminate) W ltac:(cbn; tauto)) end;
    destruct (opr_ok _ c o0 Hs' Hc Ho) as (A1&A2&A3&A4&A5&A6&A7&A8&A9&A10&A11);
    cbn [post addr fst snd enc gbase] in *; cbv zeta in *; rewrite oset_opr in * by assumption;
    unfold chip_mul, chip_dt, chip_ar, chip_rs, chip_dr, chip_am, chip_sr, chip_rr, chip_sl, chip_ssg;
    rewrite (fld_some _ _ _ _ _ _ M); f_equal;
    rewrite ?shl_mul in * by lia;
    cbn [o_mul o_dt o_ar o_rs o_dr o_am o_sl o_sr o_rr o_tl o_ssg op_set_mul op_set_dt op_set_ar op_set_rs op_set_dr op_set_am
         op_set_sl op_set_sr op_set_rr op_set_tl op_set_ssg] in *;
    unfold bits, u8 in *; pow; lia.
  - assert (M := flushed_reg (SEnableLfo v0) s tr o KLfo Hs Hop ltac:(discriminate) W ltac:(cbn; tauto)).
    destruct Hs' as (A1 & A2 & _). cbn [post addr fst snd enc] in *.
    rewrite lor_add_low in M by (pow; lia). unfold chip_lfoen. rewrite (fld_some _ _ _ _ _ _ M). f_equal.
    cbn [s_lfoen s_lfofreq sy_set_lfoen] in *. unfold bits, u8 in *; pow; lia.
  - assert (M := flushed_reg (SLfoFrequency v0) s tr o KLfo Hs Hop ltac:(discriminate) W ltac:(cbn; tauto)).
    destruct Hs' as (A1 & A2 & _). cbn [post addr fst snd enc] in *.
    rewrite lor_add_low in M by (pow; lia). unfold chip_lfofreq. rewrite (fld_some _ _ _ _ _ _ M). f_equal.
    cbn [s_lfoen s_lfofreq sy_set_lfofreq] in *. unfold bits, u8 in *; pow; lia.
  - assert (M := flushed_reg (SSpecialMode b) s tr o KMode Hs Hop ltac:(discriminate) W ltac:(cbn; tauto)).
    cbn [post addr fst snd enc] in M. unfold chip_special. rewrite (fld_some _ _ _ _ _ _ M). destruct b; reflexivity.
  - assert (M := flushed_reg (SDac b) s tr o KDac Hs Hop ltac:(discriminate) W ltac:(cbn; tauto)).
    cbn [post addr fst snd enc] in M. unfold chip_dac. rewrite (fld_some _ _ _ _ _ _ M). destruct b; reflexivity.
Qed.

(** ** C12: isolation *)
Lemma owner_key k c d : key_ok k -> key_chan k = Some c -> owner (snd (addr k)) d (fst (addr k)) = Some c.
Proof.
  intros Hk E. destruct (chan_case k c E) as [->|[->|[->|[->|(g & o & ->)]]]]; cbn [key_ok] in Hk;
  try (destruct (ch_cases c Hk) as [-> | [-> | [-> | [-> | [-> | ->]]]]]; reflexivity).
  destruct Hk as [Hc Ho].
  destruct (ch_cases c Hc) as [-> | [-> | [-> | [-> | [-> | ->]]]]], (op_cases o Ho) as [-> | [-> | [-> | ->]]], g; reflexivity.
Qed.

Lemma owner_op_key g c o : is_ch c -> is_op o -> owner_op (snd (addr (KOp g c o))) = Some o.
Proof.
  intros Hc Ho.
  destruct (ch_cases c Hc) as [-> | [-> | [-> | [-> | [-> | ->]]]]], (op_cases o Ho) as [-> | [-> | [-> | ->]]], g; reflexivity.
Qed.

Lemma fkeys_chan op s k c : sop_ok op -> sop_chan op = Some c -> In k (fkeys op s) -> key_chan k = Some c.
Proof.
  intros H Hc Hin. destruct op; cbn [sop_chan fkeys] in *; try discriminate; inversion Hc; subst; try contradiction;
  try (cbn in Hin; repeat (destruct Hin as [<-|Hin]; [reflexivity|]); contradiction).
  - destruct (_ =? _); [contradiction|]. apply in_map_iff in Hin. destruct Hin as (o & <- & _). reflexivity.
  - destruct (_ =? _); [contradiction|]. destruct Hin as [<-|[]]; reflexivity.
Qed.

Lemma in_ymw p r d o : In (EvYm p r d) o <-> In (p, r, d) (ymw o).
Proof.
  induction o as [|e t IH]; [reflexivity|]. destruct e; cbn; rewrite <- ?IH; split; intros H;
  repeat match goal with
  | H : _ \/ _ |- _ => destruct H
  | H : EvYm _ _ _ = EvYm _ _ _ |- _ => inversion H; subst
  | H : (_, _, _) = (_, _, _) |- _ => inversion H; subst
  end; auto; discriminate.
Qed.

Lemma key_offset_owner c : is_ch c -> owner 0x28 (key_on_off_reg_offset c) 0 = Some c /\
  owner 0x28 (u8 (0xF0 + key_on_off_reg_offset c)) 0 = Some c.
Proof. intros H; destruct (ch_cases c H) as [-> | [-> | [-> | [-> | [-> | ->]]]]]; split; reflexivity. Qed.

Lemma c12_isolation op s c : synth_ok s -> sop_ok op -> sop_chan op = Some c ->
  exists s' o, synth_step op s = Done tt s' o /\
    (forall p r d, In (EvYm p r d) o -> owner r d p = Some c) /\
    (forall x, sop_oper op = Some x -> forall p r d, In (EvYm p r d) o -> owner_op r = Some x).
Proof.
  intros Hs Hop Hc. destruct (step_runs op s Hs Hop) as (o & E & W & _).
  exists (post op s), o. split; [exact E|].
  assert (F : forall p r d, In (p, r, d) (flush (post op s) (fkeys op s)) ->
    owner r d p = Some c /\ forall x, sop_oper op = Some x -> owner_op r = Some x).
  { intros p r d Hin. apply in_map_iff in Hin. destruct Hin as (k & Ek & Hk).
    unfold wk in Ek. injection Ek as Ea Ed. assert (Hok := fkeys_ok op s k Hop Hk).
    assert (Hch := fkeys_chan op s k c Hop Hc Hk).
    split.
    - replace r with (snd (addr k)) by (rewrite Ea; reflexivity). replace p with (fst (addr k)) by (rewrite Ea; reflexivity).
      apply owner_key; assumption.
    - intros x Hx. replace r with (snd (addr k)) by (rewrite Ea; reflexivity).
      destruct op; cbn [sop_oper fkeys sop_ok] in *; try discriminate; inversion Hx; subst x;
      try (destruct (_ =? _); [contradiction|]); try contradiction;
      destruct Hk as [<-|[]]; apply owner_op_key; tauto. }
  assert (G : forall p r d, In (p, r, d) (writes op s) ->
    owner r d p = Some c /\ forall x, sop_oper op = Some x -> owner_op r = Some x).
  { destruct op; try exact F; cbn [sop_chan sop_ok writes] in *; try discriminate; inversion Hc; subst.
    - intros p r d [H|[]]; inversion H; subst. split; [apply key_offset_owner; exact Hop|discriminate].
    - intros p r d [H|[]]; inversion H; subst. split; [apply key_offset_owner; exact Hop|discriminate].
    - intros p r d Hin. destruct (is_output_operator _ _); [|contradiction]. destruct Hin as [H|[]].
      injection H as H1 H2 H3. destruct Hop as [Ho _].
      assert (H2' : is_ch 2) by (unfold is_ch; lia).
      assert (K : owner (snd (addr (KOp GTl 2 o0))) d (fst (addr (KOp GTl 2 o0))) = Some 2)
        by (apply owner_key; [split; assumption|reflexivity]).
      cbn [addr fst snd gbase] in K. rewrite H1, H2 in K. split; [exact K|].
      intros x Hx. inversion Hx; subst x.
      assert (K2 := owner_op_key GTl 2 o0 H2' Ho). cbn [addr snd gbase] in K2. rewrite H2 in K2. exact K2. }
  rewrite <- W in G. split.
  - intros p r d Hin. apply in_ymw in Hin. apply (G p r d Hin).
  - intros x Hx p r d Hin. apply in_ymw in Hin. apply (G p r d Hin). exact Hx.
Qed.

(** Different parameter groups live in different registers. *)
Lemma c12_distinct c o g c' o' g' :
  is_ch c -> is_ch c' -> is_op o -> is_op o' ->
  In g [0x30;0x40;0x50;0x60;0x70;0x80;0x90] -> In g' [0x30;0x40;0x50;0x60;0x70;0x80;0x90] ->
  (part_of c, oper_reg g c o) = (part_of c', oper_reg g' c' o') -> c = c' /\ o = o' /\ g = g'.
Proof.
  intros Hc Hc' Ho Ho' Hg Hg' E.
  assert (G : forall x, In x [0x30;0x40;0x50;0x60;0x70;0x80;0x90] -> exists y, x = gbase y).
  { intros x H. cbn in H.
    destruct H as [<-|[<-|[<-|[<-|[<-|[<-|[<-|[]]]]]]]];
    [exists GMul|exists GTl|exists GAr|exists GDr|exists GSr|exists GRr|exists GSsg]; reflexivity. }
  destruct (G g Hg) as [y ->], (G g' Hg') as [y' ->].
  change (addr (KOp y c o) = addr (KOp y' c' o')) in E.
  apply addr_inj in E; [inversion E; auto|split; assumption|split; assumption].
Qed.

(** ** Frequency *)
Definition ywstep (y : yfreq) (w : Z * Z * Z) : yfreq := yf_step y (EvYm (fst (fst w)) (snd (fst w)) (snd w)).
Lemma yf_fold_ymw o y : fold_left yf_step o y = fold_left ywstep (ymw o) y.
Proof. revert y; induction o as [|e t IH]; intros y; [reflexivity|]. destruct e; cbn; rewrite IH; reflexivity. Qed.
Lemma yf_run_app tr o : yf_run (tr ++ o) = fold_left ywstep (ymw o) (yf_run tr).
Proof. unfold yf_run. rewrite fold_left_app, yf_fold_ymw. reflexivity. Qed.

Definition freq_reg (g : Z) : Prop := 0xA0 <= g <= 0xA6.
Definition freqfree (w : Z * Z * Z) : Prop := ~ freq_reg (snd (fst w)).

Lemma yw_free ws y : Forall freqfree ws -> fold_left ywstep ws y = y.
Proof.
  revert y; induction ws as [|[[p g] d] t IH]; intros y H; [reflexivity|].
  inversion H as [|? ? H1 H2]; subst. cbn [fold_left]. rewrite IH by assumption.
  unfold ywstep, yf_step, freqfree, freq_reg in *; cbn in *.
  destruct (Z.leb_spec 164 g); destruct (Z.leb_spec g 166); cbn; try lia;
  destruct (Z.leb_spec 160 g); destruct (Z.leb_spec g 162); cbn; try lia; reflexivity.
Qed.

Lemma free_key k s : key_ok k -> (forall c, k <> KHi c) -> (forall c, k <> KLo c) -> freqfree (wk s k).
Proof.
  intros Hk H1 H2. unfold freqfree, freq_reg, wk; cbn [fst snd].
  destruct k as [c|c|g c o|c|c| | |]; cbn [addr snd key_ok] in *;
  try (exfalso; eapply H1; reflexivity); try (exfalso; eapply H2; reflexivity); try lia;
  try (unfold chan_reg, is_ch in *; lia).
  destruct Hk as [Hc Ho].
  destruct (ch_cases c Hc) as [-> | [-> | [-> | [-> | [-> | ->]]]]], (op_cases o Ho) as [-> | [-> | [-> | ->]]], g; cbv; intuition discriminate.
Qed.

Lemma free_flush s ks : (forall k, In k ks -> key_ok k /\ (forall c, k <> KHi c) /\ (forall c, k <> KLo c)) ->
  Forall freqfree (flush s ks).
Proof. intros H. apply Forall_forall. intros w Hw. apply in_map_iff in Hw. destruct Hw as (k & <- & Hk).
  destruct (H k Hk) as (H1 & H2 & H3). apply free_key; assumption. Qed.

Lemma free_chankeys s c : is_ch c -> Forall freqfree (flush s (chankeys c)).
Proof. intros Hc. apply free_flush. intros k Hk. split; [apply (chankeys_ok c k Hc Hk)|].
  cbn in Hk. split; intros c' ->; intuition discriminate. Qed.

Lemma free_writes op s : sop_ok op -> no_raw_clash op -> (forall c o f, op <> SPitch c o f) -> Forall freqfree (writes op s).
Proof.
  intros Hop Hr Hn.
  assert (K28 : forall d, freqfree (0, 0x28, d)) by (intros d; unfold freqfree, freq_reg; cbn; lia).
  destruct op; cbn [sop_ok no_raw_clash] in *;
  try (apply free_flush; intros k Hk; split; [eapply fkeys_ok; [|exact Hk]; exact Hop|];
       cbn in Hk; split; intros c' ->; intuition discriminate).
  - cbn [writes]; cbv zeta. apply Forall_app; split; [|apply Forall_app; split].
    + apply (free_flush _ [KDac; KMode]). intros k [<-|[<-|[]]]; (split; [exact I|split; discriminate]).
    + assert (G : forall l st w, (forall c, In c l -> is_ch c) -> Forall freqfree w -> Forall freqfree (snd (fold_left (init_acc p) l (st, w)))).
      { induction l as [|c t IH]; intros st w Hl Hw; [exact Hw|]. cbn [fold_left]. unfold init_acc at 2; cbn [fst snd]; cbv zeta.
        apply IH; [intros; apply Hl; right; assumption|]. apply Forall_app; split; [exact Hw|].
        constructor; [apply K28|]. apply free_chankeys. apply Hl; left; reflexivity. }
      apply G; [|constructor]. unfold is_ch; cbn; intros; lia.
    + apply (free_flush _ [KLfo]). intros k [<-|[]]; (split; [exact I|split; discriminate]).
  - repeat constructor; apply K28.
  - repeat constructor; apply K28.
  - exfalso; eapply Hn; reflexivity.
  - cbn [writes fkeys]. destruct (_ =? _); [constructor|]. apply free_flush. intros k Hk.
    apply in_map_iff in Hk. destruct Hk as (o & <- & Ho).
    split; [split; [apply Hop|unfold is_op; cbn in Ho; lia]|split; discriminate].
  - cbn [writes fkeys]. destruct (_ =? _); [constructor|]. apply (free_flush _ [KOp GTl c o]). intros k [<-|[]].
    split; [split; apply Hop|split; discriminate].
  - cbn [writes]. unfold u8. repeat constructor; unfold freqfree, freq_reg; cbn [fst snd]; lia.
  - cbn [writes]. destruct (is_output_operator _ _); [|constructor].
    constructor; [|constructor]. apply (free_key (KOp GTl 2 o) s); try discriminate. split; [unfold is_ch; lia|apply Hop].
  - constructor; [|constructor]. unfold freqfree, freq_reg; cbn. intros H. apply Hr. unfold managed. lia.
Qed.

Lemma pitch_bytes o f : 0 <= o < 8 -> 0 <= f < 2048 ->
  let hi := u8 (Z.lor (Z.shiftr f 8) (Z.shiftl o 3)) in
  (hi / 8) mod 8 = o /\ (hi mod 8) * 256 + u8 f = f.
Proof.
  intros Ho Hf hi. unfold hi.
  rewrite shr_div, lor_add_high by (try lia; pow; lia). pow. unfold u8. lia.
Qed.

Lemma yw_pitch s c y : is_ch c ->
  yf_freq (fold_left ywstep [wk s (KHi c); wk s (KLo c)] y) =
  fun c' => if c' =? c then Some (enc s (KHi c), enc s (KLo c)) else yf_freq y c'.
Proof.
  intros Hc. destruct (ch_cases c Hc) as [-> | [-> | [-> | [-> | [-> | ->]]]]]; reflexivity.
Qed.

Lemma c12_pitch s tr c oc f : synth_ok s -> is_ch c -> is_u8 oc -> 0 <= f < 65536 ->
  exists s' o, synth_pitch c oc f s = Done tt s' o /\
    chip_freq (tr ++ o) c = Some (oc mod 8, f mod 2048) /\
    forall c', c' <> c -> chip_freq (tr ++ o) c' = chip_freq tr c'.
Proof.
  intros Hs Hc Hoc Hf.
  destruct (step_runs (SPitch c oc f) s Hs (conj Hc (conj Hoc Hf))) as (o & E & W & _).
  exists (post (SPitch c oc f) s), o. split; [exact E|].
  unfold chip_freq. rewrite yf_run_app, W. cbn [writes fkeys flush map].
  rewrite yw_pitch by assumption. split.
  - rewrite Z.eqb_refl. cbn [enc post]. rewrite chn_same by assumption. cbn [c_oct c_freq ch_set_pitch].
    destruct (pitch_bytes (bits 3 oc) (bits 11 f)) as [P1 P2];
      [assert (B := bits_range 3 oc); pow; lia|assert (B := bits_range 11 f); pow; lia|].
    rewrite P1, P2. reflexivity.
  - intros c' Hne. destruct (Z.eqb_spec c' c); [contradiction|reflexivity].
Qed.

Lemma c13_pitch p ops s tr : preset_ok p -> Forall sop_ok ops -> Forall no_raw_clash ops ->
  synth_run (SInit p :: ops) synth0 = Done tt s tr ->
  forall c ch, zget (s_chans s) c = Some ch -> is_ch c ->
    (c_oct ch = 0 /\ c_freq ch = 0) \/ chip_freq tr c = Some (c_oct ch, c_freq ch).
Proof.
  intros Hp Ho Hr E.
  set (I := fun (s : synth) tr => forall c, is_ch c ->
    (c_oct (chn s c) = 0 /\ c_freq (chn s c) = 0) \/ chip_freq tr c = Some (c_oct (chn s c), c_freq (chn s c))).
  assert (Hinit : forall s0 c, synth_ok s0 -> is_ch c -> c_oct (chn (post (SInit p) s0) c) = 0 /\ c_freq (chn (post (SInit p) s0) c) = 0 ).
  { intros s0 c Hs0 Hc. cbn [post].
    destruct (ch_cases c Hc) as [-> | [-> | [-> | [-> | [-> | ->]]]]]; unfold chn; cbn;
    rewrite ?nth_zset; rewrite ?zset_length; try lia; cbn; auto; destruct Hs0 as (_&_&L&_); rewrite ?L; try lia; auto. }
  destruct (run_from_init no_raw_clash I p ops synth0) as (s' & tr' & E' & Hs & Hm); auto.
  - apply synth0_ok.
  - intros o _ W _ c Hc. left. apply Hinit; [apply synth0_ok|exact Hc].
  - intros op s1 tr1 o Hi Hs Hop Hraw E1 W _ c Hc.
    assert (D : (exists c1 o1 f1, op = SPitch c1 o1 f1) \/ (forall c o f, op <> SPitch c o f))
      by (destruct op; [right; discriminate|right; discriminate|right; discriminate|left; eauto|right; discriminate..]).
    destruct D as [(c1 & o1 & f1 & ->)|Hnp].
    + destruct Hop as (Hc1 & Hu & Hf).
      unfold chip_freq. rewrite yf_run_app, W. cbn [writes fkeys flush map]. rewrite yw_pitch by assumption.
      cbn [post]. rewrite chn_set_ch by assumption.
      destruct (Z.eqb_spec c c1) as [->|Hne]; [right|apply Hi; exact Hc].
      cbn [enc]. rewrite chn_same by assumption. cbn [c_oct c_freq ch_set_pitch].
      destruct (pitch_bytes (bits 3 o1) (bits 11 f1)) as [P1 P2];
        [assert (B := bits_range 3 o1); pow; lia|assert (B := bits_range 11 f1); pow; lia|].
      rewrite P1, P2. reflexivity.
    + assert (F : chip_freq (tr1 ++ o) c = chip_freq tr1 c).
      { unfold chip_freq. rewrite yf_run_app, W, yw_free; [reflexivity|apply free_writes; assumption]. }
      rewrite F. clear F W E1 E.
      assert (KEEP : (c_oct (chn (post op s1) c) = 0 /\ c_freq (chn (post op s1) c) = 0) \/
                     (c_oct (chn (post op s1) c) = c_oct (chn s1 c) /\ c_freq (chn (post op s1) c) = c_freq (chn s1 c))).
      { destruct op; cbn [post sop_ok] in *; cbv zeta; try (right; split; reflexivity);
        try (match type of Hop with is_ch _ /\ _ => destruct Hop as [Hc1 Hop] end);
        try (rewrite chn_set_ch by assumption; match goal with |- context [if ?b then _ else _] => destruct b eqn:Q end;
             [apply Z.eqb_eq in Q; subst|]; try (right; split; reflexivity); left; split; reflexivity).
        - left. clear Hinit. assert (Hs0 := init_dac_ok s1 Hs).
          destruct (ch_cases c Hc) as [-> | [-> | [-> | [-> | [-> | ->]]]]]; unfold chn; cbn;
          rewrite ?nth_zset; rewrite ?zset_length; try lia; cbn; auto; destruct Hs as (_&_&L&_); rewrite ?L; try lia; auto.
        - exfalso; eapply Hnp; reflexivity.
        - destruct (_ =? _); right; split; reflexivity.
        - destruct (_ =? _); [right; split; reflexivity|].
          rewrite chn_set_ch by assumption. destruct (Z.eqb_spec c c0) as [->|]; right; split; reflexivity. }
      destruct KEEP as [K|[K1 K2]]; [left; exact K|]. rewrite K1, K2. apply Hi; exact Hc.
  - rewrite E in E'; inversion E'; subst s' tr'.
    intros c ch Hch Hc. rewrite (zget_chn s Hs c Hc) in Hch. inversion Hch; subst. apply Hm; exact Hc.
Qed.

(** ** Keys *)
Definition kwstep c (k : option bool) (w : Z * Z * Z) := key_step c k (EvYm (fst (fst w)) (snd (fst w)) (snd w)).
Lemma key_fold_ymw c o k : fold_left (key_step c) o k = fold_left (kwstep c) (ymw o) k.
Proof. revert k; induction o as [|e t IH]; intros k; [reflexivity|]. destruct e; cbn; rewrite IH; reflexivity. Qed.
Lemma key_state_app tr o c : key_state (tr ++ o) c = fold_left (kwstep c) (ymw o) (key_state tr c).
Proof. unfold key_state. rewrite fold_left_app, key_fold_ymw. reflexivity. Qed.

Lemma kw_free c ws k : (forall w, In w ws -> snd (fst w) <> 0x28) -> fold_left (kwstep c) ws k = k.
Proof.
  revert k; induction ws as [|[[p g] d] t IH]; intros k H; [reflexivity|].
  cbn [fold_left]. rewrite IH by (intros; apply H; right; assumption).
  unfold kwstep, key_step; cbn. assert (N := H (p, g, d) (or_introl eq_refl)). cbn in N.
  destruct (Z.eqb_spec g 40); [contradiction|]. rewrite andb_false_r. reflexivity.
Qed.

Lemma addr_not_28 k : key_ok k -> snd (addr k) <> 0x28.
Proof. intros Hk. assert (M := addr_managed k Hk). unfold managed in M. lia. Qed.

Lemma nonkey_writes op s : synth_ok s -> sop_ok op -> ~ keying op -> forall w, In w (writes op s) -> snd (fst w) <> 0x28.
Proof.
  intros Hs Hop Hk.
  assert (F : forall w, In w (flush (post op s) (fkeys op s)) -> snd (fst w) <> 0x28).
  { intros w Hw. apply in_map_iff in Hw. destruct Hw as (k & <- & Hin). cbn. apply addr_not_28. eapply fkeys_ok; eassumption. }
  destruct op; try exact F; cbn [keying] in Hk; try tauto.
  - intros w [<-|[<-|[]]]; cbn; unfold u8; lia.
  - intros w Hw. cbn [writes] in Hw. destruct (is_output_operator _ _); [|contradiction]. destruct Hw as [<-|[]].
    apply (addr_not_28 (KOp GTl 2 o)). split; [unfold is_ch; lia|apply Hop].
Qed.

Lemma c12_keys_untouched op s tr : synth_ok s -> sop_ok op -> ~ keying op ->
  exists s' o, synth_step op s = Done tt s' o /\ forall c, key_state (tr ++ o) c = key_state tr c.
Proof.
  intros Hs Hop Hk. destruct (step_runs op s Hs Hop) as (o & E & W & _).
  exists (post op s), o. split; [exact E|]. intros c. rewrite key_state_app, W.
  apply kw_free. apply nonkey_writes; assumption.
Qed.

Lemma c12_key_on_off (on : bool) s tr c : synth_ok s -> is_ch c ->
  exists o, (if on then synth_note_on c s else synth_note_off c s) = Done tt s o /\
    key_state (tr ++ o) c = Some on /\ (forall c', is_ch c' -> c' <> c -> key_state (tr ++ o) c' = key_state tr c').
Proof.
  intros Hs Hc.
  destruct on.
  - destruct (step_runs (SNoteOn c) s Hs Hc) as (o & E & W & _). exists o. split; [exact E|].
    split; [|intros c' Hc' Hne]; rewrite key_state_app, W; cbn [writes fold_left].
    + destruct (ch_cases c Hc) as [-> | [-> | [-> | [-> | [-> | ->]]]]]; reflexivity.
    + unfold kwstep, key_step; cbn [fst snd]. rewrite (proj2 (key_offset_owner c Hc)).
      destruct (Z.eqb_spec c c'); [congruence|]. rewrite !andb_false_r; reflexivity.
  - destruct (step_runs (SNoteOff c) s Hs Hc) as (o & E & W & _). exists o. split; [exact E|].
    split; [|intros c' Hc' Hne]; rewrite key_state_app, W; cbn [writes fold_left].
    + destruct (ch_cases c Hc) as [-> | [-> | [-> | [-> | [-> | ->]]]]]; reflexivity.
    + unfold kwstep, key_step; cbn [fst snd]. rewrite (proj1 (key_offset_owner c Hc)).
      destruct (Z.eqb_spec c c'); [congruence|]. rewrite !andb_false_r; reflexivity.
Qed.

(** Special mode frequency registers. *)
Lemma c12_special s tr o oc f : synth_ok s -> 0 <= o < 3 -> 0 <= oc < 8 -> 0 <= f < 2048 ->
  exists out hi lo, synth_special_mode_pitch o oc f s = Done tt s out /\
    ymw out = [(0, fst (special_regs o), hi); (0, snd (special_regs o), lo)] /\
    (hi / 8) mod 8 = oc /\ (hi mod 8) * 256 + lo = f /\ ym_regs (tr ++ out) 0 (fst (special_regs o)) = Some hi /\
    ym_regs (tr ++ out) 0 (snd (special_regs o)) = Some lo.
Proof.
  intros Hs Ho Hoc Hf.
  assert (Hop : sop_ok (SSpecialPitch o oc f)) by (cbn; unfold is_u8; lia).
  destruct (step_runs (SSpecialPitch o oc f) s Hs Hop) as (out & E & W & _).
  exists out, (u8 (Z.lor (Z.shiftr f 8) (Z.shiftl oc 3))), (u8 f). split; [exact E|].
  destruct (pitch_bytes oc f Hoc Hf) as [P1 P2].
  assert (C : o = 0 \/ o = 1 \/ o = 2) by lia.
  assert (W' : ymw out = [(0, fst (special_regs o), u8 (Z.lor (Z.shiftr f 8) (Z.shiftl oc 3))); (0, snd (special_regs o), u8 f)]).
  { rewrite W. cbn [writes]. destruct C as [-> | [-> | ->]]; reflexivity. }
  split; [exact W'|]. split; [exact P1|]. split; [exact P2|].
  rewrite ym_regs_app, W'. destruct C as [-> | [-> | ->]]; split; reflexivity.
Qed.

(** ** C16 *)
Lemma init_eq k s : bind init_global (fun _ => bind (synth_enable_dac false) k) s =
  match k tt (init_dac s) with
  | Fault f => Fault f
  | Done b s2 o2 => Done b s2 ([EvZ80Load false; EvZ80Req; EvYm 0 0x2B 0] ++ o2)
  end :> res synth unit.
Proof.
  destruct s as [a b c d e f g h]. unfold bind, init_global, modify, synth_enable_dac, gets, emit; cbn.
  unfold init_dac; cbn. unfold bind. cbn. destruct (k tt _); reflexivity.
Qed.

Lemma init_bus p s0 : synth_ok s0 -> preset_ok p -> exists o, synth_init p s0 = Done tt (post (SInit p) s0) o /\
  ymw o = writes (SInit p) s0 /\ coherent (post (SInit p) s0) /\
  forall b a, bsafe b o /\ fold_left bus_step o b = s_bus (post (SInit p) s0) /\
     latchok (post (SInit p) s0) (fold_left latch_step o a).
Proof.
  intros Hs Hp. set (s1 := sy_set_bus (sy_set_dac s0 false) true).
  assert (Hs1 : synth_ok s1) by exact Hs.
  destruct (step_runs (SInit p) s1 Hs1 Hp) as (o & E & W & [B1 B2]).
  destruct (B2 eq_refl) as (C1 & C2 & C3).
  exists o. cbn [synth_step] in E.
  assert (E0 : synth_init p s0 = Done tt (post (SInit p) s0) o).
  { unfold synth_init in *. rewrite init_eq in *. exact E. }
  split; [exact E0|]. split; [exact W|]. split; [exact C1|].
  assert (P : exists o', o = EvZ80Load false :: o').
  { unfold synth_init in E. rewrite init_eq in E.
    match type of E with match ?x with _ => _ end = _ => destruct x as [u s2 o2|f] end; [|discriminate].
    inversion E; eauto. }
  destruct P as (o' & ->). intros b a. split; [|split].
  - destruct C2 as [_ C2]. split; [intros []|exact C2].
  - exact B1.
  - apply (C3 a). intros Hd; discriminate Hd.
Qed.

Lemma bsafe_safe tr : bsafe false tr -> bus_safe tr.
Proof.
  assert (G : forall tr b, bsafe b tr -> forall t1 e t2, tr = t1 ++ e :: t2 -> ym_access e -> fold_left bus_step t1 b = true).
  { induction tr0 as [|x t IH]; intros b H t1 e t2 E Ha; [destruct t1; discriminate|].
    destruct H as [H1 H2]. destruct t1 as [|y t1]; cbn in E; inversion E; subst.
    - cbn. apply H1; exact Ha.
    - cbn. eapply IH; eauto. }
  intros H t1 e t2 E Ha. exact (G tr false H t1 e t2 E Ha).
Qed.

Lemma c16_bus p ops s tr : preset_ok p -> Forall sop_ok ops ->
  synth_run (SInit p :: ops) synth0 = Done tt s tr ->
  bus_safe tr /\ bus_after tr = negb (s_dac s) /\ (s_dac s = true -> latched tr = Some 0x2A).
Proof.
  intros Hp Ho E.
  destruct (init_bus p synth0 synth0_ok Hp) as (o1 & E1 & W1 & C1 & F1).
  destruct (F1 false None) as (B1 & B2 & B3).
  destruct (run_ind (fun _ => True) (fun s tr => coherent s /\ bsafe false tr /\ fold_left bus_step tr false = s_bus s /\ latchok s (latched tr))) with
    (ops := ops) (s := post (SInit p) synth0) (tr := o1) as (s' & o2 & E2 & _ & (C & S & B & L)); auto.
  - intros op s1 tr1 o (C & S & B & L) Hs Hop _ _ _ [R1 R2].
    destruct (R2 C) as (C' & S' & L'). split; [exact C'|]. split; [|split].
    + apply bsafe_app; [exact S|rewrite B; exact S'].
    + rewrite fold_left_app, B; exact R1.
    + unfold latched. rewrite fold_left_app. apply L'. exact L.
  - apply Forall_forall; auto.
  - apply post_ok; [apply synth0_ok|exact Hp].
  - assert (E' : synth_run (SInit p :: ops) synth0 = Done tt s' (o1 ++ o2)).
    { unfold synth_run in *. cbn [runM synth_step]. unfold bind. rewrite E1, E2. reflexivity. }
    rewrite E in E'; inversion E'; subst. split; [apply bsafe_safe; exact S|]. split; [|exact L].
    unfold bus_after. rewrite B. exact C.
Qed.

(** ** C10, volume part *)
Lemma carrier_dec_eq alg o : is_carrier alg o = true <-> carrier alg o.
Proof.
  unfold is_carrier, carrier. rewrite existsb_exists. split.
  - intros (x & H & E). apply Z.eqb_eq in E; subst; exact H.
  - intros H. exists o. split; [exact H|apply Z.eqb_refl].
Qed.

Lemma c10_law : loudness_law expected_level.
Proof.
  unfold loudness_law, expected_level. split; [|split; [|split; [|split]]].
  - intros. rewrite scaled_full. destruct (is_carrier _ _); reflexivity.
  - intros alg o tl H _. apply carrier_dec_eq in H. rewrite H. apply scaled_zero.
  - intros. destruct (is_carrier _ _); [|lia]. apply scaled_louder; lia.
  - intros alg v o tl H. destruct (is_carrier alg o) eqn:E; [|reflexivity]. apply carrier_dec_eq in E; contradiction.
  - intros alg v o tl Hv Ht. destruct (is_carrier _ _); [|lia]. assert (R := scaled_range v tl). lia.
Qed.

(** ** Witnesses *)
Lemma c13_level_stale :
  exists s tr, synth_run [SInit (demo_preset 0); SVolume 0 0; SAlgorithm 0 7] synth0 = Done tt s tr /\
    (exists ch, zget (s_chans s) 0 = Some ch /\ c_alg ch = 7) /\ zget (s_vols s) 0 = Some 0 /\
    carrier 7 0 /\ chip_tl (ym_regs tr) 0 0 = Some 20 /\ expected_level 7 0 0 20 = 127.
Proof. eexists. eexists. split; [vm_compute; reflexivity|]. vm_compute. split; [eexists; split; reflexivity|]. tauto. Qed.

Lemma c13_pitch_stale :
  exists s tr ch, synth_run [SInit (demo_preset 0); SPitch 1 4 1083; SPreset 1 (demo_preset 2)] synth0 = Done tt s tr /\
    zget (s_chans s) 1 = Some ch /\ c_oct ch = 0 /\ c_freq ch = 0 /\ chip_freq tr 1 = Some (4, 1083).
Proof. eexists. eexists. eexists. split; [vm_compute; reflexivity|]. vm_compute. tauto. Qed.

Lemma c13_special_volume_stale :
  exists s tr, synth_run [SInit (demo_preset 0); SSpecialVolume 3 0] synth0 = Done tt s tr /\
    zget (s_vols s) 2 = Some 127 /\ chip_tl (ym_regs tr) 2 3 = Some 127 /\ expected_level 0 127 3 50 = 50.
Proof. eexists. eexists. split; [vm_compute; reflexivity|]. vm_compute. tauto. Qed.
