(** Proofs about the synthesizer model. *)
From Verif Require Import Base BaseLemmas SynthModel SynthSpec.

(** ** Arithmetic *)
Lemma lor_add_low x y n : 0 <= n -> 0 <= y < 2 ^ n -> Z.lor (Z.shiftl x n) y = x * 2 ^ n + y.
Proof.
  intros Hn Hy. rewrite <- Z.shiftl_mul_pow2 by lia.
  assert (H0 : Z.land (Z.shiftl x n) y = 0).
  { apply Z.bits_inj'; intros i Hi. rewrite Z.land_spec, Z.bits_0.
    destruct (Z.lt_ge_cases i n) as [Hlt|Hge].
    - rewrite Z.shiftl_spec_low by lia. reflexivity.
    - destruct (Z.eq_dec y 0) as [->|Hne]; [rewrite Z.bits_0; apply andb_false_r|].
      rewrite (Z.bits_above_log2 y i); [apply andb_false_r|lia|].
      apply Z.lt_le_trans with n; [|lia]. apply Z.log2_lt_pow2; lia. }
  rewrite Z.add_nocarry_lxor by exact H0. symmetry; apply Z.lxor_lor; exact H0.
Qed.

Lemma lor_add_high x y n : 0 <= n -> 0 <= y < 2 ^ n -> Z.lor y (Z.shiftl x n) = x * 2 ^ n + y.
Proof. intros; rewrite Z.lor_comm; apply lor_add_low; assumption. Qed.

Lemma shl_mul x n : 0 <= n -> Z.shiftl x n = x * 2 ^ n.
Proof. apply Z.shiftl_mul_pow2. Qed.

Lemma shr_div x n : 0 <= n -> Z.shiftr x n = x / 2 ^ n.
Proof. apply Z.shiftr_div_pow2. Qed.

Ltac pow :=
  change (2 ^ 0) with 1 in *; change (2 ^ 1) with 2 in *; change (2 ^ 2) with 4 in *;
  change (2 ^ 3) with 8 in *; change (2 ^ 4) with 16 in *; change (2 ^ 5) with 32 in *;
  change (2 ^ 6) with 64 in *; change (2 ^ 7) with 128 in *; change (2 ^ 8) with 256 in *;
  change (2 ^ 11) with 2048 in *.

Lemma bits_range n x : 0 <= n -> 0 <= bits n x < 2 ^ n.
Proof. intros; unfold bits; apply Z.mod_pos_bound; apply Z.pow_pos_nonneg; lia. Qed.

(** ** Selecting channels and operators *)
Definition chn (s : synth) (c : Z) : fmchan := nth (Z.to_nat c) (s_chans s) chan0.
Definition oper (ch : fmchan) (o : Z) : operator := nth (Z.to_nat o) (c_ops ch) op0.
Definition opr (s : synth) (c o : Z) : operator := oper (chn s c) o.
Definition vol (s : synth) (c : Z) : Z := nth (Z.to_nat c) (s_vols s) 0.
Definition set_ch (s : synth) (c : Z) (x : fmchan) : synth := sy_set_chans s (zset (s_chans s) c x).
Definition set_op (ch : fmchan) (o : Z) (x : operator) : fmchan := ch_set_ops ch (zset (c_ops ch) o x).
Definition set_vol (s : synth) (c v : Z) : synth := sy_set_vols s (zset (s_vols s) c v).

Lemma zget_nth {A} (l : list A) i d : 0 <= i < Z.of_nat (length l) -> zget l i = Some (nth (Z.to_nat i) l d).
Proof.
  intros H. unfold zget. destruct (Z.ltb_spec i 0); [lia|].
  apply nth_error_nth'. lia.
Qed.

Lemma nth_zset {A} (l : list A) i j x d : 0 <= i < Z.of_nat (length l) -> 0 <= j ->
  nth (Z.to_nat j) (zset l i x) d = if j =? i then x else nth (Z.to_nat j) l d.
Proof.
  intros Hi Hj.
  assert (H : zget (zset l i x) j = if i =? j then Some x else zget l j).
  { destruct (zget_in_range l i Hi) as [y Hy]. eapply zget_zset; exact Hy. }
  rewrite Z.eqb_sym.
  destruct (Z.lt_ge_cases j (Z.of_nat (length l))) as [Hlt|Hge].
  - rewrite (zget_nth (zset l i x) j d) in H by (rewrite zset_length; lia).
    rewrite (zget_nth l j d) in H by lia.
    destruct (i =? j); congruence.
  - destruct (Z.eqb_spec i j); [lia|].
    rewrite !nth_overflow; auto; rewrite ?zset_length; lia.
Qed.

Section Ok.
Context (s : synth) (Hs : synth_ok s).
Let Hlen : length (s_chans s) = 6%nat. Proof. apply Hs. Qed.
Let Hvlen : length (s_vols s) = 6%nat. Proof. apply Hs. Qed.

Lemma zget_chn c : is_ch c -> zget (s_chans s) c = Some (chn s c).
Proof. unfold is_ch; intros H. apply zget_nth. rewrite Hlen; lia. Qed.

Lemma chn_ok c : is_ch c -> chan_ok (chn s c).
Proof. intros H. eapply Forall_zget; [apply Hs|apply zget_chn; exact H]. Qed.

Lemma zget_vol c : is_ch c -> zget (s_vols s) c = Some (vol s c).
Proof. unfold is_ch; intros H. apply zget_nth. rewrite Hvlen; lia. Qed.

Lemma vol_ok c : is_ch c -> 0 <= vol s c < 128.
Proof. intros H. eapply (Forall_zget (fun v => 0 <= v < 128)); [apply Hs|apply zget_vol; exact H]. Qed.

Lemma chn_set_ch c c' x : is_ch c -> is_ch c' -> chn (set_ch s c x) c' = if c' =? c then x else chn s c'.
Proof. unfold is_ch; intros Hc Hc'. unfold chn, set_ch; cbn. apply nth_zset; [rewrite Hlen|]; lia. Qed.

Lemma vol_set_vol c c' v : is_ch c -> is_ch c' -> vol (set_vol s c v) c' = if c' =? c then v else vol s c'.
Proof. unfold is_ch; intros Hc Hc'. unfold vol, set_vol; cbn. apply nth_zset; [rewrite Hvlen|]; lia. Qed.

Lemma set_ch_ok c x : chan_ok x -> synth_ok (set_ch s c x).
Proof.
  intros Hx. destruct Hs as (H1 & H2 & H3 & H4 & H5 & H6).
  unfold synth_ok, set_ch; cbn. rewrite zset_length.
  split; [exact H1|split; [exact H2|split; [exact H3|split; [|split; [exact H5|exact H6]]]]].
  apply Forall_zset; assumption.
Qed.

Lemma set_vol_ok c v : 0 <= v < 128 -> synth_ok (set_vol s c v).
Proof.
  intros Hx. destruct Hs as (H1 & H2 & H3 & H4 & H5 & H6).
  unfold synth_ok, set_vol; cbn. rewrite zset_length.
  split; [exact H1|split; [exact H2|split; [exact H3|split; [exact H4|split; [exact H5|]]]]].
  apply Forall_zset; assumption.
Qed.
End Ok.

Lemma zget_oper ch o : chan_ok ch -> is_op o -> zget (c_ops ch) o = Some (oper ch o).
Proof. unfold is_op; intros H Ho. apply zget_nth. destruct H as (_&_&_&_&_&_&_&->&_). lia. Qed.

Lemma oper_ok ch o : chan_ok ch -> is_op o -> op_ok (oper ch o).
Proof.
  intros H Ho. eapply Forall_zget; [|apply zget_oper; eassumption].
  apply H.
Qed.

Lemma opr_ok s c o : synth_ok s -> is_ch c -> is_op o -> op_ok (opr s c o).
Proof. intros; apply oper_ok; auto; apply chn_ok; auto. Qed.

Lemma oper_set_op ch o o' x : chan_ok ch -> is_op o -> is_op o' ->
  oper (set_op ch o x) o' = if o' =? o then x else oper ch o'.
Proof.
  unfold is_op; intros H Ho Ho'. unfold oper, set_op; cbn.
  destruct H as (_&_&_&_&_&_&_&H&_). apply nth_zset; [rewrite H|]; lia.
Qed.

Lemma set_op_ok ch o x : chan_ok ch -> op_ok x -> chan_ok (set_op ch o x).
Proof.
  intros (H1&H2&H3&H4&H5&H6&H7&H8&H9) Hx. unfold chan_ok, set_op; cbn.
  rewrite zset_length.
  split; [exact H1|split; [exact H2|split; [exact H3|split; [exact H4|split; [exact H5|
  split; [exact H6|split; [exact H7|split; [exact H8|]]]]]]]].
  apply Forall_zset; assumption.
Qed.

(** ** Effects: the YM writes and the bus behaviour of a computation *)
Fixpoint ymw (o : list event) : list (Z * Z * Z) :=
  match o with
  | [] => []
  | EvYm p r d :: t => (p, r, d) :: ymw t
  | _ :: t => ymw t
  end.

Lemma ymw_app a b : ymw (a ++ b) = ymw a ++ ymw b.
Proof. induction a as [|e t IH]; [reflexivity|]. destruct e; cbn; rewrite ?IH; reflexivity. Qed.

Definition coherent (s : synth) : Prop := s_bus s = negb (s_dac s).
Fixpoint bsafe (b : bool) (o : list event) : Prop :=
  match o with
  | [] => True
  | e :: t => (ym_access e -> b = true) /\ bsafe (bus_step b e) t
  end.
Lemma bsafe_app o1 o2 b : bsafe b o1 -> bsafe (fold_left bus_step o1 b) o2 -> bsafe b (o1 ++ o2).
Proof. revert b; induction o1 as [|e t IH]; intros b H1 H2; [exact H2|].
  destruct H1; split; [assumption|apply IH; assumption]. Qed.

Definition latchok (s : synth) (a : option Z) : Prop := s_dac s = true -> a = Some 0x2A.

Definition busrel (s : synth) (o : list event) (s' : synth) : Prop :=
  fold_left bus_step o (s_bus s) = s_bus s' /\
  (coherent s -> coherent s' /\ bsafe (s_bus s) o /\
     forall a, latchok s a -> latchok s' (fold_left latch_step o a)).

Lemma busrel_app s o1 s1 o2 s2 : busrel s o1 s1 -> busrel s1 o2 s2 -> busrel s (o1 ++ o2) s2.
Proof.
  intros [H1 K1] [H2 K2]. split; [rewrite fold_left_app, H1; exact H2|].
  intros Hc. destruct (K1 Hc) as (Hc1 & Hb1 & L1). destruct (K2 Hc1) as (Hc2 & Hb2 & L2).
  split; [exact Hc2|split].
  - apply bsafe_app; [exact Hb1|rewrite H1; exact Hb2].
  - intros a Ha. rewrite fold_left_app. apply L2, L1, Ha.
Qed.

Lemma busrel_silent s s' o : s_bus s' = s_bus s -> s_dac s' = s_dac s ->
  (forall e, In e o -> ~ ym_access e /\ (forall b, bus_step b e = b)) -> busrel s o s'.
Proof.
  intros Hb Hd Ho.
  assert (F : forall b, fold_left bus_step o b = b).
  { revert Ho. induction o as [|e t IH]; intros Ho b; [reflexivity|].
    cbn. destruct (Ho e (or_introl eq_refl)) as [_ ->]. apply IH. intros; apply Ho; right; auto. }
  assert (L : forall a, fold_left latch_step o a = a).
  { clear F. revert Ho. induction o as [|e t IH]; intros Ho a; [reflexivity|].
    cbn. replace (latch_step a e) with a; [apply IH; intros; apply Ho; right; auto|].
    destruct (Ho e (or_introl eq_refl)) as [Hn _]. destruct e; cbn in *; tauto. }
  split; [rewrite F; congruence|]. intros Hc. unfold coherent in *.
  split; [congruence|split].
  - clear F L. revert Ho. generalize (s_bus s). induction o as [|e t IH]; intros b Ho; [exact I|].
    split; [intros Hy; exfalso; apply (Ho e (or_introl eq_refl)); exact Hy|].
    apply IH; intros; apply Ho; right; auto.
  - intros a Ha. rewrite L. unfold latchok in *. rewrite Hd; exact Ha.
Qed.

Definition runs {A} (m : M synth A) (s : synth) (a : A) (s' : synth) (ws : list (Z * Z * Z)) : Prop :=
  exists o, m s = Done a s' o /\ ymw o = ws /\ busrel s o s'.

Lemma runs_bind {A B} (m : M synth A) (k : A -> M synth B) s a s1 w1 b s2 w2 :
  runs m s a s1 w1 -> runs (k a) s1 b s2 w2 -> runs (bind m k) s b s2 (w1 ++ w2).
Proof.
  intros (o1 & E1 & W1 & B1) (o2 & E2 & W2 & B2). exists (o1 ++ o2).
  unfold bind; rewrite E1, E2. split; [reflexivity|split].
  - rewrite ymw_app; congruence.
  - eapply busrel_app; eassumption.
Qed.

Lemma runs_bind0 {A B} (m : M synth A) (k : A -> M synth B) s a s1 b s2 w :
  runs m s a s1 [] -> runs (k a) s1 b s2 w -> runs (bind m k) s b s2 w.
Proof. apply (runs_bind m k s a s1 [] b s2 w). Qed.

Lemma runs_ret {A} (a : A) s : runs (ret a) s a s [].
Proof. exists []. split; [reflexivity|split; [reflexivity|]]. apply busrel_silent; auto. intros e []. Qed.

Lemma runs_get s : runs get s s s [].
Proof. exists []. split; [reflexivity|split; [reflexivity|]]. apply busrel_silent; auto. intros e []. Qed.

Lemma runs_gets {A} (f : synth -> A) s : runs (gets f) s (f s) s [].
Proof. exists []. split; [reflexivity|split; [reflexivity|]]. apply busrel_silent; auto. intros e []. Qed.

Lemma runs_modify f s : s_bus (f s) = s_bus s -> s_dac (f s) = s_dac s -> runs (modify f) s tt (f s) [].
Proof. intros. exists []. split; [reflexivity|split; [reflexivity|]]. apply busrel_silent; auto. intros e []. Qed.

Lemma runs_rd {A} (l : list A) i x s : zget l i = Some x -> runs (rd l i) s x s [].
Proof. intros H. unfold rd; rewrite H. apply runs_ret. Qed.

Definition wrs (s : synth) (p r d : Z) : list event :=
  if s_dac s && negb (s_bus s) then [EvZ80Req; EvYm p r d; EvYmLatch 0 0x2A; EvZ80Rel]
  else [EvYm p r d].

Lemma write_reg_safe_eq p r d s : write_reg_safe p r d s = Done tt s (wrs s p r d).
Proof. destruct s as [a b c [] e f g []]; reflexivity. Qed.

Lemma wrs_busrel s p r d : busrel s (wrs s p r d) s.
Proof.
  unfold wrs. destruct s as [a b c [] e f g []]; cbn; unfold busrel, coherent, latchok; cbn;
  (split; [reflexivity|]); intros H; try discriminate; repeat split; auto; discriminate.
Qed.

Lemma runs_write p r d s : runs (write_reg_safe p r d) s tt s [(p, r, d)].
Proof.
  exists (wrs s p r d). split; [apply write_reg_safe_eq|split; [|apply wrs_busrel]].
  unfold wrs. destruct (_ && _); reflexivity.
Qed.

Lemma runs_param c k s : runs (parameter_updated c k) s tt s [].
Proof.
  unfold parameter_updated. destruct s as [a b d e f g [] h].
  - exists [EvParam c k]. split; [reflexivity|split; [reflexivity|]].
    apply busrel_silent; auto. intros e0 [<-|[]]. split; [intros []|reflexivity].
  - exists []. split; [reflexivity|split; [reflexivity|]]. apply busrel_silent; auto. intros e0 [].
Qed.

Lemma runs_eq {A} (m : M synth A) s a s1 w1 s2 w2 : runs m s a s1 w1 -> s1 = s2 -> w1 = w2 -> runs m s a s2 w2.
Proof. intros H -> ->; exact H. Qed.

Lemma runs_forM {X} (l : list X) (f : X -> M synth unit) s w :
  (forall x, In x l -> runs (f x) s tt s (w x)) -> runs (forM l f) s tt s (flat_map w l).
Proof.
  induction l as [|x t IH]; intros H; [apply runs_ret|].
  cbn [forM flat_map]. eapply runs_bind; [apply H; left; reflexivity|].
  apply IH; intros; apply H; right; assumption.
Qed.

Lemma runs_get_chan s c : synth_ok s -> is_ch c -> runs (get_chan c) s (chn s c) s [].
Proof.
  intros Hs Hc. unfold get_chan. eapply runs_eq; [eapply runs_bind; [apply runs_get|]| |reflexivity].
  - apply runs_rd. apply zget_chn; assumption.
  - reflexivity.
Qed.

Lemma runs_get_operator s c o : synth_ok s -> is_ch c -> is_op o -> runs (get_operator c o) s (opr s c o) s [].
Proof.
  intros Hs Hc Ho. unfold get_operator.
  eapply runs_eq; [eapply runs_bind; [apply runs_get_chan; assumption|]| |reflexivity].
  - apply runs_rd. apply zget_oper; [apply chn_ok|]; assumption.
  - reflexivity.
Qed.

Lemma runs_mod_chan s c f : synth_ok s -> is_ch c -> runs (mod_chan c f) s tt (set_ch s c (f (chn s c))) [].
Proof.
  intros Hs Hc. unfold mod_chan. eapply runs_eq; [eapply runs_bind; [apply runs_get_chan; assumption|]| |reflexivity].
  - apply runs_modify; reflexivity.
  - reflexivity.
Qed.

Lemma runs_mod_operator s c o f : synth_ok s -> is_ch c -> is_op o ->
  runs (mod_operator c o f) s tt (set_ch s c (set_op (chn s c) o (f (opr s c o)))) [].
Proof.
  intros Hs Hc Ho. unfold mod_operator.
  eapply runs_eq; [eapply runs_bind; [apply runs_get_operator; assumption|]| |reflexivity].
  - apply runs_mod_chan; assumption.
  - reflexivity.
Qed.

(** ** Keys: the parameter groups of the chip *)
Inductive group := GMul | GAr | GDr | GSr | GRr | GSsg | GTl.
Inductive key := KAlg (c : Z) | KSt (c : Z) | KOp (g : group) (c o : Z)
               | KHi (c : Z) | KLo (c : Z) | KLfo | KMode | KDac.

Definition gbase (g : group) : Z :=
  match g with GMul => 0x30 | GTl => 0x40 | GAr => 0x50 | GDr => 0x60 | GSr => 0x70 | GRr => 0x80 | GSsg => 0x90 end.

Definition addr (k : key) : Z * Z :=
  match k with
  | KAlg c => (part_of c, chan_reg 0xB0 c)
  | KSt c => (part_of c, chan_reg 0xB4 c)
  | KOp g c o => (part_of c, oper_reg (gbase g) c o)
  | KHi c => (part_of c, chan_reg 0xA4 c)
  | KLo c => (part_of c, chan_reg 0xA0 c)
  | KLfo => (0, 0x22) | KMode => (0, 0x27) | KDac => (0, 0x2B)
  end.

Definition key_ok (k : key) : Prop :=
  match k with
  | KAlg c | KSt c | KHi c | KLo c => is_ch c
  | KOp _ c o => is_ch c /\ is_op o
  | _ => True
  end.

Definition level (s : synth) (c o tl : Z) : Z :=
  if is_output_operator (c_alg (chn s c)) o
  then adjust_total_level (nth (Z.to_nat (vol s c)) VOLUME_TO_TOTAL_LEVELS 127) tl else tl.

Definition enc (s : synth) (k : key) : Z :=
  match k with
  | KAlg c => u8 (Z.shiftl (c_fb (chn s c)) 3 + c_alg (chn s c))
  | KSt c => u8 (Z.shiftl (c_st (chn s c)) 6 + Z.shiftl (c_ams (chn s c)) 4 + c_fms (chn s c))
  | KHi c => u8 (Z.lor (Z.shiftr (c_freq (chn s c)) 8) (Z.shiftl (c_oct (chn s c)) 3))
  | KLo c => u8 (c_freq (chn s c))
  | KOp g c o =>
      let x := opr s c o in
      match g with
      | GMul => u8 (o_mul x + Z.shiftl (o_dt x) 4)
      | GAr => u8 (o_ar x + Z.shiftl (o_rs x) 6)
      | GDr => u8 (o_dr x + Z.shiftl (o_am x) 7)
      | GSr => u8 (o_sr x)
      | GRr => u8 (o_rr x + Z.shiftl (o_sl x) 4)
      | GSsg => u8 (o_ssg x)
      | GTl => u8 (level s c o (o_tl x))
      end
  | KLfo => u8 (Z.lor (Z.shiftl (s_lfoen s) 3) (s_lfofreq s))
  | KMode => u8 (Z.shiftl (b2z (s_special s)) 6)
  | KDac => if s_dac s then 0x80 else 0
  end.

Definition wk (s : synth) (k : key) : Z * Z * Z := (addr k, enc s k).

Lemma part_eq c : is_ch c -> (if c >? 2 then 1 else 0) = part_of c.
Proof. unfold is_ch, part_of; intros. destruct (Z.gtb_spec c 2); lia. Qed.

Lemma reg_eq b c : 0 <= b < 200 -> is_ch c -> u8 (b + c mod 3) = chan_reg b c.
Proof. unfold is_ch, chan_reg, u8; intros. lia. Qed.

Lemma runs_wch c b d s : is_ch c -> 0 <= b < 200 ->
  runs (write_channel_reg c b d) s tt s [(part_of c, chan_reg b c, u8 d)].
Proof.
  intros Hc Hb. unfold write_channel_reg. rewrite part_eq, reg_eq by assumption. apply runs_write.
Qed.

Lemma op_cases o : is_op o -> o = 0 \/ o = 1 \/ o = 2 \/ o = 3.
Proof. unfold is_op; lia. Qed.

Lemma runs_wop c o b d s : is_ch c -> is_op o -> 0 <= b < 150 ->
  runs (write_operator_reg c o b d) s tt s [(part_of c, oper_reg b c o, u8 d)].
Proof.
  intros Hc Ho Hb. unfold write_operator_reg.
  assert (E : u8 (b + reg_operator_index o * 4) = b + op_off o).
  { destruct (op_cases o Ho) as [-> | [-> | [-> | ->]]]; unfold reg_operator_index, op_off, u8;
    cbn -[Z.modulo]; change (0 =? 1) with false; change (0 =? 2) with false;
    change (1 =? 1) with true; change (2 =? 1) with false; change (2 =? 2) with true;
    change (3 =? 1) with false; change (3 =? 2) with false; cbv iota; lia. }
  rewrite E. unfold oper_reg. replace (b + op_off o + c mod 3) with (chan_reg (b + op_off o) c) by reflexivity.
  apply runs_wch; [exact Hc|].
  destruct (op_cases o Ho) as [-> | [-> | [-> | ->]]]; cbn; lia.
Qed.

Section Writers.
Context (s : synth) (c o : Z) (Hs : synth_ok s) (Hc : is_ch c) (Ho : is_op o).

Lemma runs_alg : runs (write_algorithm_and_feedback c) s tt s [wk s (KAlg c)].
Proof. unfold write_algorithm_and_feedback.
  eapply runs_eq; [eapply runs_bind; [apply runs_get_chan; assumption|apply runs_wch; [exact Hc|unfold YM_ALG_FB; lia]]| |];
  reflexivity. Qed.
Lemma runs_st : runs (write_stereo_ams_fms c) s tt s [wk s (KSt c)].
Proof. unfold write_stereo_ams_fms.
  eapply runs_eq; [eapply runs_bind; [apply runs_get_chan; assumption|apply runs_wch; [exact Hc|unfold YM_STEREO; lia]]| |];
  reflexivity. Qed.
Lemma runs_freq : runs (write_octave_and_frequency c) s tt s [wk s (KHi c); wk s (KLo c)].
Proof. unfold write_octave_and_frequency.
  eapply runs_eq; [eapply runs_bind; [apply runs_get_chan; assumption|]| |].
  - eapply runs_bind; [apply runs_wch; [exact Hc|unfold YM_FREQ_MSB; lia]|].
    eapply runs_bind; [apply runs_get_chan; assumption|].
    apply runs_wch; [exact Hc|unfold YM_FREQ_LSB; lia].
  - reflexivity.
  - reflexivity. Qed.

Ltac wop := eapply runs_eq; [eapply runs_bind; [apply runs_get_operator; assumption|
    apply runs_wop; [exact Hc|exact Ho|lia]]| |]; reflexivity.
Lemma runs_mul : runs (write_operator_multiple_and_detune c o) s tt s [wk s (KOp GMul c o)].
Proof. unfold write_operator_multiple_and_detune, YM_MUL_DT. wop. Qed.
Lemma runs_ar : runs (write_operator_rate_scaling_and_attack_rate c o) s tt s [wk s (KOp GAr c o)].
Proof. unfold write_operator_rate_scaling_and_attack_rate, YM_AR_RS. wop. Qed.
Lemma runs_dr : runs (write_operator_amplitude_modulation_and_decay_rate c o) s tt s [wk s (KOp GDr c o)].
Proof. unfold write_operator_amplitude_modulation_and_decay_rate, YM_DR_AM. wop. Qed.
Lemma runs_sr : runs (write_operator_sustain_rate c o) s tt s [wk s (KOp GSr c o)].
Proof. unfold write_operator_sustain_rate, YM_SR. wop. Qed.
Lemma runs_rr : runs (write_operator_release_rate_and_sustain_level c o) s tt s [wk s (KOp GRr c o)].
Proof. unfold write_operator_release_rate_and_sustain_level, YM_RR_SL. wop. Qed.
Lemma runs_ssg : runs (write_operator_ssg_eg c o) s tt s [wk s (KOp GSsg c o)].
Proof. unfold write_operator_ssg_eg, YM_SSG. wop. Qed.

Lemma runs_vatl tl : runs (volume_adjusted_total_level c tl) s
  (adjust_total_level (nth (Z.to_nat (vol s c)) VOLUME_TO_TOTAL_LEVELS 127) tl) s [].
Proof.
  unfold volume_adjusted_total_level.
  eapply runs_eq; [eapply runs_bind; [apply runs_get|]| |].
  - eapply runs_bind; [apply runs_rd, zget_vol; assumption|].
    eapply runs_bind; [apply runs_rd, zget_nth|apply runs_ret].
    exact (vol_ok s Hs c Hc).
  - reflexivity.
  - reflexivity.
Qed.

Lemma runs_etl tl : runs (effective_total_level c o tl) s (level s c o tl) s [].
Proof.
  unfold effective_total_level.
  eapply runs_eq; [eapply runs_bind; [apply runs_get_chan; assumption|]| |reflexivity].
  - unfold level. cbv beta. destruct (is_output_operator _ _); [apply runs_vatl|apply runs_ret].
  - reflexivity.
Qed.

Lemma runs_tl : runs (write_operator_total_level c o) s tt s [wk s (KOp GTl c o)].
Proof.
  unfold write_operator_total_level, YM_TL.
  eapply runs_eq; [eapply runs_bind; [apply runs_get_operator; assumption|]| |].
  - eapply runs_bind; [apply runs_etl|]. apply runs_wop; [exact Hc|exact Ho|lia].
  - reflexivity.
  - reflexivity.
Qed.
End Writers.

Lemma runs_lfo s : runs write_global_lfo s tt s [wk s KLfo].
Proof. unfold write_global_lfo. eapply runs_eq; [eapply runs_bind; [apply runs_get|apply runs_write]| |]; reflexivity. Qed.
Lemma runs_mode s : runs write_special_mode_reg s tt s [wk s KMode].
Proof. unfold write_special_mode_reg. eapply runs_eq; [eapply runs_bind; [apply runs_gets|apply runs_write]| |]; reflexivity. Qed.
Lemma runs_dacreg s : runs write_dac_reg s tt s [wk s KDac].
Proof. unfold write_dac_reg. eapply runs_eq; [eapply runs_bind; [apply runs_gets|apply runs_write]| |]; reflexivity. Qed.

Definition opkeys (c o : Z) : list key :=
  [KOp GMul c o; KOp GAr c o; KOp GDr c o; KOp GSr c o; KOp GRr c o; KOp GTl c o; KOp GSsg c o].
Definition chankeys (c : Z) : list key := [KAlg c; KSt c] ++ flat_map (opkeys c) [0;1;2;3].
Definition flush (s : synth) (ks : list key) := map (wk s) ks.

Lemma runs_update s c : synth_ok s -> is_ch c -> runs (update_channel c) s tt s (flush s (chankeys c)).
Proof.
  intros Hs Hc. unfold update_channel.
  eapply runs_eq; [eapply runs_bind; [apply runs_alg; assumption|]| |].
  - eapply runs_bind; [apply runs_st; assumption|].
    apply (runs_forM _ _ s (fun o => flush s (opkeys c o))).
    intros o Hin. assert (Ho : is_op o) by (unfold is_op; cbn in Hin; lia).
    eapply runs_eq; [eapply runs_bind; [apply runs_mul; assumption|]| |].
    + eapply runs_bind; [apply runs_ar; assumption|].
      eapply runs_bind; [apply runs_dr; assumption|].
      eapply runs_bind; [apply runs_sr; assumption|].
      eapply runs_bind; [apply runs_rr; assumption|].
      eapply runs_bind; [apply runs_tl; assumption|].
      apply runs_ssg; assumption.
    + reflexivity.
    + reflexivity.
  - reflexivity.
  - reflexivity.
Qed.

(** ** Well-formedness of updated values *)
Ltac okrng := match goal with
  | |- 0 <= bits ?n ?x < _ => let H := fresh in assert (H := bits_range n x); pow; apply H; lia
  end.

Ltac opset := intros (H1&H2&H3&H4&H5&H6&H7&H8&H9&H10&H11); unfold op_ok; cbn;
  repeat match goal with |- (0 <= _ < _) /\ _ => split end; try assumption; okrng.
Lemma op_set_mul_ok x v : op_ok x -> op_ok (op_set_mul x v). Proof. opset. Qed.
Lemma op_set_dt_ok x v : op_ok x -> op_ok (op_set_dt x v). Proof. opset. Qed.
Lemma op_set_ar_ok x v : op_ok x -> op_ok (op_set_ar x v). Proof. opset. Qed.
Lemma op_set_rs_ok x v : op_ok x -> op_ok (op_set_rs x v). Proof. opset. Qed.
Lemma op_set_dr_ok x v : op_ok x -> op_ok (op_set_dr x v). Proof. opset. Qed.
Lemma op_set_am_ok x v : op_ok x -> op_ok (op_set_am x v). Proof. opset. Qed.
Lemma op_set_sl_ok x v : op_ok x -> op_ok (op_set_sl x v). Proof. opset. Qed.
Lemma op_set_sr_ok x v : op_ok x -> op_ok (op_set_sr x v). Proof. opset. Qed.
Lemma op_set_rr_ok x v : op_ok x -> op_ok (op_set_rr x v). Proof. opset. Qed.
Lemma op_set_tl_ok x v : op_ok x -> op_ok (op_set_tl x v). Proof. opset. Qed.
Lemma op_set_ssg_ok x v : op_ok x -> op_ok (op_set_ssg x v). Proof. opset. Qed.

Ltac chset := intros (H1&H2&H3&H4&H5&H6&H7&H8&H9); unfold chan_ok; cbn;
  repeat match goal with |- (0 <= _ < _) /\ _ => split | |- (length _ = _) /\ _ => split end;
  try assumption; okrng.
Lemma ch_set_alg_ok x v : chan_ok x -> chan_ok (ch_set_alg x v). Proof. chset. Qed.
Lemma ch_set_fb_ok x v : chan_ok x -> chan_ok (ch_set_fb x v). Proof. chset. Qed.
Lemma ch_set_st_ok x v : chan_ok x -> chan_ok (ch_set_st x v). Proof. chset. Qed.
Lemma ch_set_ams_ok x v : chan_ok x -> chan_ok (ch_set_ams x v). Proof. chset. Qed.
Lemma ch_set_fms_ok x v : chan_ok x -> chan_ok (ch_set_fms x v). Proof. chset. Qed.
Lemma ch_set_pitch_ok x o f : chan_ok x -> chan_ok (ch_set_pitch x o f). Proof. chset. Qed.
Lemma preset_to_channel_ok p st : preset_ok p -> chan_ok (preset_to_channel p st).
Proof.
  intros (H1&H2&H3&H4&H5&H6). unfold chan_ok, preset_to_channel; cbn.
  repeat match goal with |- (0 <= _ < _) /\ _ => split | |- (length _ = _) /\ _ => split end;
  try assumption; try okrng; lia.
Qed.

(** ** Effect of each API call *)
Definition init_dac (s : synth) : synth :=
  mkSynth (bits 1 1) (bits 3 0) false false (s_chans s) (s_vols s) (s_cb s) true.

Definition init_chan (p : preset) (s : synth) (c : Z) : synth :=
  set_ch (set_vol s c MAX_VOLUME) c (preset_to_channel p STEREO_CENTRE).

Definition init_acc (p : preset) (a : synth * list (Z * Z * Z)) (c : Z) : synth * list (Z * Z * Z) :=
  let st' := init_chan p (fst a) c in
  (st', snd a ++ [(0, 0x28, key_on_off_reg_offset c)] ++ flush st' (chankeys c)).

Definition post (op : sop) (s : synth) : synth :=
  let cset c f := set_ch s c (f (chn s c)) in
  let oset c o f := set_ch s c (set_op (chn s c) o (f (opr s c o))) in
  match op with
  | SInit p => fold_left (init_chan p) [0;1;2;3;4;5] (init_dac s)
  | SNoteOn _ | SNoteOff _ => s
  | SPitch c o f => cset c (fun x => ch_set_pitch x o f)
  | SVolume c v => if vol s c =? v then s else set_vol s c v
  | SStereo c v => cset c (fun x => ch_set_st x v)
  | SAlgorithm c v => cset c (fun x => ch_set_alg x v)
  | SFeedback c v => cset c (fun x => ch_set_fb x v)
  | SAms c v => cset c (fun x => ch_set_ams x v)
  | SFms c v => cset c (fun x => ch_set_fms x v)
  | STotalLevel c o v => if o_tl (opr s c o) =? v then s else oset c o (fun x => op_set_tl x v)
  | SMultiple c o v => oset c o (fun x => op_set_mul x v)
  | SDetune c o v => oset c o (fun x => op_set_dt x v)
  | SRateScaling c o v => oset c o (fun x => op_set_rs x v)
  | SAttackRate c o v => oset c o (fun x => op_set_ar x v)
  | SDecayRate c o v => oset c o (fun x => op_set_dr x v)
  | SSustainRate c o v => oset c o (fun x => op_set_sr x v)
  | SSustainLevel c o v => oset c o (fun x => op_set_sl x v)
  | SAmpMod c o v => oset c o (fun x => op_set_am x v)
  | SReleaseRate c o v => oset c o (fun x => op_set_rr x v)
  | SSsgEg c o v => oset c o (fun x => op_set_ssg x v)
  | SEnableLfo v => sy_set_lfoen s v
  | SLfoFrequency v => sy_set_lfofreq s v
  | SPreset c p => cset c (fun x => preset_to_channel p (c_st x))
  | SCallback b => sy_set_cb s b
  | SSpecialMode b => sy_set_special s b
  | SSpecialPitch _ _ _ | SSpecialVolume _ _ | SDirect _ _ _ => s
  | SDac b => sy_set_bus (sy_set_dac s b)
                (if b then (if s_dac s then s_bus s else false) else true)
  end.

(** Keys flushed to the chip by a call (values taken from the final state). *)
Definition fkeys (op : sop) (s : synth) : list key :=
  match op with
  | SInit p => [KDac; KMode] ++ flat_map chankeys [0;1;2;3;4;5] ++ [KLfo]
  | SPitch c _ _ => [KHi c; KLo c]
  | SVolume c v => if vol s c =? v then [] else map (KOp GTl c) [0;1;2;3]
  | SStereo c _ | SAms c _ | SFms c _ => [KSt c]
  | SAlgorithm c _ | SFeedback c _ => [KAlg c]
  | STotalLevel c o v => if o_tl (opr s c o) =? v then [] else [KOp GTl c o]
  | SMultiple c o _ | SDetune c o _ => [KOp GMul c o]
  | SRateScaling c o _ | SAttackRate c o _ => [KOp GAr c o]
  | SDecayRate c o _ | SAmpMod c o _ => [KOp GDr c o]
  | SSustainRate c o _ => [KOp GSr c o]
  | SSustainLevel c o _ | SReleaseRate c o _ => [KOp GRr c o]
  | SSsgEg c o _ => [KOp GSsg c o]
  | SEnableLfo _ | SLfoFrequency _ => [KLfo]
  | SPreset c _ => chankeys c
  | SSpecialMode _ => [KMode]
  | SDac _ => [KDac]
  | _ => []
  end.

Definition writes (op : sop) (s : synth) : list (Z * Z * Z) :=
  match op with
  | SNoteOn c => [(0, 0x28, u8 (0xF0 + key_on_off_reg_offset c))]
  | SNoteOff c => [(0, 0x28, key_on_off_reg_offset c)]
  | SSpecialPitch o oct f =>
      [(0, u8 (0xAC + u8 ((o + 1) mod 3)), u8 (Z.lor (Z.shiftr f 8) (Z.shiftl oct 3)));
       (0, u8 (0xA8 + u8 ((o + 1) mod 3)), u8 f)]
  | SSpecialVolume o v =>
      if is_output_operator (c_alg (chn s 2)) o then
        [(addr (KOp GTl 2 o),
          u8 (level s 2 o (adjust_total_level (nth (Z.to_nat v) VOLUME_TO_TOTAL_LEVELS 127) (o_tl (opr s 2 o)))))]
      else []
  | SDirect p r d => [(p, r, d)]
  | SInit p =>
      let s0 := init_dac s in
      [wk s0 KDac; wk s0 KMode]
      ++ snd (fold_left (init_acc p)
         [0;1;2;3;4;5] (s0, []))
      ++ [wk (post op s) KLfo]
  | _ => flush (post op s) (fkeys op s)
  end.

Lemma init_dac_ok s : synth_ok s -> synth_ok (init_dac s).
Proof. intros (H1&H2&H3&H4&H5&H6). unfold synth_ok, init_dac, bits; cbn. pow.
  split; [lia|split; [lia|auto]]. Qed.

Lemma init_chan_ok p s c : preset_ok p -> synth_ok s -> synth_ok (init_chan p s c).
Proof.
  intros Hp Hs. unfold init_chan. apply set_ch_ok; [|apply preset_to_channel_ok; exact Hp].
  apply set_vol_ok; [exact Hs|unfold MAX_VOLUME; lia].
Qed.

Lemma fold_init_ok p l s : preset_ok p -> synth_ok s -> synth_ok (fold_left (init_chan p) l s).
Proof. intros Hp; revert s; induction l as [|c t IH]; intros s Hs; [exact Hs|]. cbn. apply IH, init_chan_ok; assumption. Qed.

Ltac chok := repeat first
  [ assumption | apply chn_ok | apply opr_ok | apply set_op_ok
  | apply op_set_mul_ok | apply op_set_dt_ok | apply op_set_ar_ok | apply op_set_rs_ok
  | apply op_set_dr_ok | apply op_set_am_ok | apply op_set_sl_ok | apply op_set_sr_ok
  | apply op_set_rr_ok | apply op_set_tl_ok | apply op_set_ssg_ok
  | apply ch_set_alg_ok | apply ch_set_fb_ok | apply ch_set_st_ok | apply ch_set_ams_ok
  | apply ch_set_fms_ok | apply ch_set_pitch_ok | apply preset_to_channel_ok ].

Lemma post_ok op s : synth_ok s -> sop_ok op -> synth_ok (post op s).
Proof.
  intros Hs H. destruct op; cbn [post sop_ok] in *;
  try (match type of H with is_ch _ /\ _ => destruct H as [Hc H] end);
  try (match type of H with is_op _ /\ _ => destruct H as [Ho H] end); try exact Hs;
  try (apply set_ch_ok; [exact Hs|chok; fail]).
  - apply fold_init_ok; [exact H|apply init_dac_ok; exact Hs].
  - destruct (_ =? _); [exact Hs|apply set_vol_ok; assumption].
  - destruct (_ =? _); [exact Hs|]. apply set_ch_ok; [exact Hs|chok].
  - destruct Hs as (H1&H2&H3). split; [cbn; okrng|split; [exact H2|exact H3]].
  - destruct Hs as (H1&H2&H3). split; [exact H1|split; [cbn; okrng|exact H3]].
  - apply set_ch_ok; [exact Hs|]. apply preset_to_channel_ok; exact H.
Qed.

Lemma busrel_load s (b : bool) : (* Z80_loadDriver(NULL); requestBus *)
  busrel s [EvZ80Load false; EvZ80Req] (sy_set_dac (sy_set_bus s true) false).
Proof. split; [reflexivity|]. intros _. split; [reflexivity|split].
  - cbn; repeat split; intros [].
  - intros a _; discriminate. Qed.

Lemma runs_init_dac s :
  runs (init_global ;; synth_enable_dac false) s tt (init_dac s) [wk (init_dac s) KDac].
Proof.
  exists [EvZ80Load false; EvZ80Req; EvYm 0 0x2B 0]. split; [|split].
  - destruct s as [a b c d e f g h]; reflexivity.
  - reflexivity.
  - destruct s as [a b c d e f g h]. unfold busrel, coherent, latchok; cbn.
    split; [reflexivity|]. intros _. repeat split; auto; intros; discriminate.
Qed.

Lemma runs_dac s b : runs (synth_enable_dac b) s tt (post (SDac b) s) (writes (SDac b) s).
Proof.
  destruct s as [a1 b1 c1 d1 e1 f1 g1 h1]. destruct b, d1, h1;
  (eexists; split; [reflexivity|split; [reflexivity|]]);
  unfold busrel, coherent, latchok; cbn;
  (split; [reflexivity|]); intros H; try discriminate H; repeat split; auto; intros; try discriminate; try contradiction.
Qed.

Lemma runs_key_off s c : runs (synth_note_off c) s tt s [(0, 0x28, key_on_off_reg_offset c)].
Proof. apply runs_write. Qed.

Lemma runs_bind_assoc {A B C} (m : M synth A) (k : A -> M synth B) (h : B -> M synth C) s c s' w :
  runs (bind (bind m k) h) s c s' w -> runs (bind m (fun a => bind (k a) h)) s c s' w.
Proof.
  intros (o & E & R). exists o. split; [|exact R].
  unfold bind in *. destruct (m s) as [a s1 o1|f]; [|discriminate].
  destruct (k a s1) as [b s2 o2|f]; [|discriminate].
  destruct (h b s2) as [cc s3 o3|f]; [|discriminate].
  inversion E; subst. rewrite app_assoc. reflexivity.
Qed.

Lemma runs_init s p : synth_ok s -> preset_ok p ->
  runs (synth_init p) s tt (post (SInit p) s) (writes (SInit p) s).
Proof.
  intros Hs Hp. unfold synth_init. apply runs_bind_assoc.
  eapply runs_eq; [eapply runs_bind; [apply runs_init_dac|]| |].
  - eapply runs_bind; [apply runs_mode|].
    eapply runs_bind; [|apply runs_lfo].
    assert (G : forall l st w, synth_ok st -> (forall c, In c l -> is_ch c) ->
      exists w', runs (forM l (fun chan =>
        s <- get ;; _ <- rd (s_vols s) chan ;;
        modify (fun s => sy_set_vols s (zset (s_vols s) chan MAX_VOLUME)) ;;
        synth_note_off chan ;;
        mod_chan chan (fun _ => preset_to_channel p STEREO_CENTRE) ;;
        update_channel chan)) st tt (fold_left (init_chan p) l st) w' /\
      fold_left (init_acc p) l (st, w)
      = (fold_left (init_chan p) l st, w ++ w')).
    { induction l as [|c t IH]; intros st w Hst Hl.
      - exists []. split; [apply runs_ret|]. cbn. rewrite app_nil_r; reflexivity.
      - assert (Hc : is_ch c) by (apply Hl; left; reflexivity).
        assert (Hv : synth_ok (set_vol st c MAX_VOLUME)) by (apply set_vol_ok; [exact Hst|unfold MAX_VOLUME; lia]).
        assert (Hi : synth_ok (init_chan p st c)) by (apply init_chan_ok; assumption).
        destruct (IH (init_chan p st c) (w ++ [(0, 0x28, key_on_off_reg_offset c)] ++ flush (init_chan p st c) (chankeys c)) Hi)
          as (w' & R & E); [intros; apply Hl; right; assumption|].
        exists (([(0, 0x28, key_on_off_reg_offset c)] ++ flush (init_chan p st c) (chankeys c)) ++ w').
        split.
        + cbn [forM fold_left]. eapply runs_bind; [|exact R].
          eapply runs_eq; [eapply runs_bind; [apply runs_get|]| |].
          * eapply runs_bind; [apply runs_rd, zget_vol; assumption|].
            eapply runs_bind; [apply runs_modify; reflexivity|].
            eapply runs_bind; [apply runs_key_off|].
            eapply runs_bind; [apply (runs_mod_chan (set_vol st c MAX_VOLUME)); assumption|].
            apply runs_update; [exact Hi|exact Hc].
          * reflexivity.
          * reflexivity.
        + cbn [fold_left]. unfold init_acc at 2. cbn [fst snd]. cbv zeta. rewrite E. rewrite <- !app_assoc. reflexivity. }
    destruct (G [0;1;2;3;4;5] (init_dac s) [] (init_dac_ok s Hs)) as (w' & R & E).
    { unfold is_ch; cbn; intros; lia. }
    eapply runs_eq; [exact R|reflexivity|].
    instantiate (1 := snd (fold_left (init_acc p)
         [0;1;2;3;4;5] (init_dac s, []))).
    rewrite E. reflexivity.
  - reflexivity.
  - reflexivity.
Qed.

Theorem step_runs op s : synth_ok s -> sop_ok op ->
  runs (synth_step op) s tt (post op s) (writes op s).
Proof.
  intros Hs H. pose proof (post_ok op s Hs H) as Hp.
  destruct op; cbn [synth_step sop_ok] in *;
  try (match type of H with is_ch _ /\ _ => destruct H as [Hc H] end);
  try (match type of H with is_op _ /\ _ => destruct H as [Ho H] end);
  try (eapply runs_eq; [eapply runs_bind; [apply runs_mod_chan; assumption|];
         first [apply runs_freq; assumption
               |eapply runs_bind; [first [apply runs_alg|apply runs_st|apply runs_update]; assumption|apply runs_param]]
        |reflexivity|reflexivity]; fail);
  try (eapply runs_eq; [eapply runs_bind; [apply runs_mod_operator; assumption|];
         eapply runs_bind; [first [apply runs_mul|apply runs_ar|apply runs_dr|apply runs_sr|apply runs_rr|apply runs_ssg]; assumption|apply runs_param]
        |reflexivity|reflexivity]; fail).
  - apply runs_init; assumption.
  - apply runs_write.
  - apply runs_write.
  - unfold synth_volume.
    eapply runs_bind0; [apply runs_get|]. eapply runs_bind0; [apply runs_rd, zget_vol; assumption|].
    cbn [post writes fkeys] in *.
    destruct (_ =? _); [apply runs_ret|].
    eapply runs_bind0; [apply runs_modify; reflexivity|].
    eapply runs_eq; [apply (runs_forM [0;1;2;3] _ (set_vol s c v) (fun o => [wk (set_vol s c v) (KOp GTl c o)]))| |]; [|reflexivity|reflexivity].
    intros o Hin. apply runs_tl; [exact Hp|exact Hc|unfold is_op; cbn in Hin; lia].
  - unfold synth_operator_total_level.
    eapply runs_bind0; [apply runs_get_operator; assumption|].
    cbn [post writes fkeys] in *.
    destruct (_ =? _); [apply runs_ret|].
    eapply runs_bind0; [apply runs_mod_operator; assumption|].
    eapply runs_eq; [eapply runs_bind; [apply runs_tl; assumption|apply runs_param]| |]; reflexivity.
  - eapply runs_eq; [eapply runs_bind; [apply runs_modify; reflexivity|]; eapply runs_bind; [apply runs_lfo|apply runs_param]| |]; reflexivity.
  - eapply runs_eq; [eapply runs_bind; [apply runs_modify; reflexivity|]; eapply runs_bind; [apply runs_lfo|apply runs_param]| |]; reflexivity.
  - apply runs_modify; reflexivity.
  - eapply runs_eq; [eapply runs_bind; [apply runs_modify; reflexivity|]; eapply runs_bind; [apply runs_mode|apply runs_param]| |]; reflexivity.
  - eapply runs_eq; [eapply runs_bind; apply runs_write| |]; reflexivity.
  - assert (H2 : is_ch CH3) by (unfold is_ch, CH3; lia).
    unfold synth_special_mode_volume.
    eapply runs_bind0; [apply runs_get_operator; assumption|].
    eapply runs_bind0; [apply runs_get_chan; assumption|].
    cbn [post writes fkeys] in *. unfold CH3 in *.
    destruct (is_output_operator _ _); cbn [negb]; [|apply runs_ret].
    eapply runs_bind0; [apply runs_rd, zget_nth; exact H|].
    eapply runs_bind0; [apply runs_etl; assumption|].
    apply runs_wop; [assumption|assumption|unfold YM_TL; lia].
  - apply runs_write.
  - apply runs_dac.
Qed.
