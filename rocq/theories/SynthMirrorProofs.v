(** Invariants of histories of synthesizer calls. *)
From Verif Require Import Base BaseLemmas SynthModel SynthSpec SynthProofs.

(** ** Register file over write lists *)
Definition rstep (r : ymfile) (w : Z * Z * Z) : ymfile :=
  fun p' g' => if (p' =? fst (fst w)) && (g' =? snd (fst w)) then Some (snd w) else r p' g'.
Definition rrun (r : ymfile) (ws : list (Z * Z * Z)) : ymfile := fold_left rstep ws r.

Lemma ym_fold_ymw o r : fold_left ym_step o r = rrun r (ymw o).
Proof.
  revert r; induction o as [|e t IH]; intros r; [reflexivity|].
  destruct e; cbn [fold_left ym_step ymw]; rewrite IH; reflexivity.
Qed.

Lemma ym_regs_app tr o : ym_regs (tr ++ o) = rrun (ym_regs tr) (ymw o).
Proof. unfold ym_regs. rewrite fold_left_app, ym_fold_ymw. reflexivity. Qed.

Lemma rrun_app r a b : rrun r (a ++ b) = rrun (rrun r a) b.
Proof. apply fold_left_app. Qed.

Lemma rrun_other r ws p g : (forall w, In w ws -> fst w <> (p, g)) -> rrun r ws p g = r p g.
Proof.
  revert r; induction ws as [|[[p' g'] d] t IH]; intros r H; [reflexivity|].
  cbn [rrun fold_left]. fold (rrun (rstep r (p', g', d)) t).
  rewrite IH by (intros; apply H; right; assumption).
  unfold rstep; cbn [fst snd]. destruct (Z.eqb_spec p p'); cbn; [|reflexivity].
  destruct (Z.eqb_spec g g'); [|reflexivity]. subst.
  exfalso; apply (H (p', g', d)); [left|]; reflexivity.
Qed.

Definition dec_addr (a : Z * Z) : key :=
  let '(p, r) := a in
  let c := 3 * p + r mod 4 in
  if r <? 0x30 then (if r =? 0x22 then KLfo else if r =? 0x27 then KMode else KDac)
  else if r <? 0xA0 then
    KOp (match r / 16 with 3 => GMul | 4 => GTl | 5 => GAr | 6 => GDr | 7 => GSr | 8 => GRr | _ => GSsg end)
        c (match (r / 4) mod 4 with 0 => 0 | 1 => 2 | 2 => 1 | _ => 3 end)
  else if r <? 0xA4 then KLo c else if r <? 0xA8 then KHi c else if r <? 0xB4 then KAlg c else KSt c.

Lemma ch_cases c : is_ch c -> c = 0 \/ c = 1 \/ c = 2 \/ c = 3 \/ c = 4 \/ c = 5.
Proof. unfold is_ch; lia. Qed.

Lemma dec_addr_addr k : key_ok k -> dec_addr (addr k) = k.
Proof.
  destruct k as [c|c|g c o|c|c| | |]; cbn [key_ok]; intros H; try reflexivity;
  try (destruct (ch_cases c H) as [-> | [-> | [-> | [-> | [-> | ->]]]]]; reflexivity).
  destruct H as [Hc Ho].
  destruct (ch_cases c Hc) as [-> | [-> | [-> | [-> | [-> | ->]]]]], (op_cases o Ho) as [-> | [-> | [-> | ->]]];
  destruct g; reflexivity.
Qed.

Lemma addr_inj k k' : key_ok k -> key_ok k' -> addr k = addr k' -> k = k'.
Proof. intros H H' E. rewrite <- (dec_addr_addr k H), <- (dec_addr_addr k' H'), E. reflexivity. Qed.

Lemma key_eq_dec (k k' : key) : {k = k'} + {k <> k'}.
Proof. repeat decide equality. Qed.

Lemma rrun_flush r s ks k : (forall x, In x ks -> key_ok x) -> key_ok k ->
  rrun r (flush s ks) (fst (addr k)) (snd (addr k)) =
  if in_dec key_eq_dec k ks then Some (enc s k) else r (fst (addr k)) (snd (addr k)).
Proof.
  intros Hks Hk. revert r; induction ks as [|x t IH]; intros r; [reflexivity|].
  change (rrun r (flush s (x :: t))) with (rrun (rstep r (wk s x)) (flush s t)).
  rewrite IH by (intros; apply Hks; right; assumption).
  destruct (in_dec key_eq_dec k t) as [Hi|Hn].
  - destruct (in_dec key_eq_dec k (x :: t)) as [_|Hn]; [reflexivity|]. exfalso; apply Hn; right; exact Hi.
  - destruct (key_eq_dec x k) as [->|Hne].
    + destruct (in_dec key_eq_dec k (k :: t)) as [_|Hn']; [|exfalso; apply Hn'; left; reflexivity].
      unfold rstep, wk; cbn. rewrite !Z.eqb_refl. reflexivity.
    + destruct (in_dec key_eq_dec k (x :: t)) as [[Hx|Hx]|_]; [contradiction|contradiction|].
      unfold rstep, wk; cbn.
      destruct (Z.eqb_spec (fst (addr k)) (fst (addr x))) as [E1|]; cbn; [|reflexivity].
      destruct (Z.eqb_spec (snd (addr k)) (snd (addr x))) as [E2|]; [|reflexivity].
      exfalso; apply Hne. apply addr_inj; [apply Hks; left; reflexivity|exact Hk|].
      destruct (addr k), (addr x); cbn in *; congruence.
Qed.

Definition mir (X : key -> Prop) (s : synth) (r : ymfile) : Prop :=
  forall k, key_ok k -> X k -> r (fst (addr k)) (snd (addr k)) = Some (enc s k).

Definition unkeyed (w : Z * Z * Z) : Prop := forall k, key_ok k -> fst w <> addr k.

Lemma mir_step (X X' : key -> Prop) s s' r junk ks :
  (forall k, key_ok k -> X' k -> In k ks \/ (X k /\ enc s' k = enc s k)) ->
  Forall unkeyed junk -> (forall k, In k ks -> key_ok k) ->
  mir X s r -> mir X' s' (rrun r (junk ++ flush s' ks)).
Proof.
  intros HX Hj Hks Hm k Hk Hx. rewrite rrun_app, rrun_flush by assumption.
  destruct (in_dec key_eq_dec k ks) as [_|Hn]; [reflexivity|].
  destruct (HX k Hk Hx) as [|[HXk ->]]; [contradiction|].
  rewrite rrun_other; [apply Hm; assumption|].
  intros w Hw E. rewrite Forall_forall in Hj. apply (Hj w Hw k Hk).
  rewrite E. destruct (addr k); reflexivity.
Qed.

Lemma mir_weaken (X X' : key -> Prop) s r : (forall k, X' k -> X k) -> mir X s r -> mir X' s r.
Proof. intros H Hm k Hk Hx; apply Hm; auto. Qed.

(** ** Which keys does an operation leave unchanged? *)
Definition key_chan (k : key) : option Z :=
  match k with KAlg c | KSt c | KOp _ c _ | KHi c | KLo c => Some c | _ => None end.

Lemma enc_other_chan s s' k :
  (forall c, key_chan k = Some c -> chn s' c = chn s c /\ vol s' c = vol s c) ->
  (key_chan k = None -> s_lfoen s' = s_lfoen s /\ s_lfofreq s' = s_lfofreq s /\
                        s_special s' = s_special s /\ s_dac s' = s_dac s) ->
  enc s' k = enc s k.
Proof.
  intros H G. destruct k as [c|c|g c o|c|c| | |]; cbn [key_chan] in *;
  try (destruct (H c eq_refl) as [H1 H2]); try (destruct (G eq_refl) as (G1 & G2 & G3 & G4));
  unfold enc; try destruct g; unfold level, opr; rewrite ?H1, ?H2, ?G1, ?G2, ?G3, ?G4; reflexivity.
Qed.

Lemma enc_set_ch_other s c x k : synth_ok s -> is_ch c -> key_ok k -> key_chan k <> Some c ->
  enc (set_ch s c x) k = enc s k.
Proof.
  intros Hs Hc Hk Hn. apply enc_other_chan; [|intros _; repeat split; reflexivity].
  intros c' E. split; [|reflexivity].
  assert (is_ch c') by (destruct k; cbn in *; inversion E; subst; tauto).
  rewrite chn_set_ch by assumption. destruct (Z.eqb_spec c' c); [congruence|reflexivity].
Qed.

Lemma enc_set_vol_other s c v k : synth_ok s -> is_ch c -> key_ok k ->
  (forall o, k <> KOp GTl c o) -> enc (set_vol s c v) k = enc s k.
Proof.
  intros Hs Hc Hk Hn.
  destruct k as [c'|c'|g c' o|c'|c'| | |]; try reflexivity.
  destruct Hk as [Hc' Ho]. destruct g; try reflexivity.
  unfold enc, level. change (opr (set_vol s c v) c' o) with (opr s c' o).
  change (chn (set_vol s c v) c') with (chn s c').
  rewrite vol_set_vol by assumption.
  destruct (Z.eqb_spec c' c); [subst; exfalso; apply (Hn o); reflexivity|reflexivity].
Qed.

Lemma chn_same s c x : synth_ok s -> is_ch c -> chn (set_ch s c x) c = x.
Proof. intros; rewrite chn_set_ch by assumption. rewrite Z.eqb_refl; reflexivity. Qed.

Lemma opr_set_op s c o o' x : synth_ok s -> is_ch c -> is_op o -> is_op o' ->
  opr (set_ch s c (set_op (chn s c) o x)) c o' = if o' =? o then x else opr s c o'.
Proof.
  intros. unfold opr. rewrite chn_same by assumption. apply oper_set_op; auto. apply chn_ok; auto.
Qed.

(** Keys whose chip value may become stale when an operation runs. *)
Definition stale (op : sop) (k : key) : Prop :=
  match op with
  | SAlgorithm c _ => exists o, k = KOp GTl c o
  | SSpecialVolume o _ => k = KOp GTl 2 o
  | SPreset c _ => k = KHi c \/ k = KLo c
  | SInit _ => exists c, k = KHi c \/ k = KLo c
  | SDirect p r _ => addr k = (p, r)
  | _ => False
  end.

Lemma chan_case k c : key_chan k = Some c ->
  k = KAlg c \/ k = KSt c \/ k = KHi c \/ k = KLo c \/ exists g o, k = KOp g c o.
Proof. destruct k; cbn; intros E; inversion E; subst; eauto 10. Qed.

Lemma in_chankeys k c : key_ok k -> key_chan k = Some c -> In k (chankeys c) \/ k = KHi c \/ k = KLo c.
Proof.
  intros Hk E. destruct (chan_case k c E) as [->|[->|[->|[->|(g & o & ->)]]]]; cbn; auto.
  left. destruct Hk as [_ Ho]. destruct (op_cases o Ho) as [-> | [-> | [-> | ->]]], g; cbn; tauto.
Qed.

Lemma chankeys_ok c k : is_ch c -> In k (chankeys c) -> key_ok k /\ key_chan k = Some c /\ k <> KHi c /\ k <> KLo c.
Proof.
  intros Hc H. cbn in H. unfold is_ch in Hc.
  repeat (destruct H as [<-|H]; [cbn; unfold is_ch, is_op; repeat split; try lia; discriminate|]). contradiction.
Qed.

Lemma key_chan_dec k c : {key_chan k = Some c} + {key_chan k <> Some c}.
Proof. destruct (key_chan k) as [c'|]; [|right; discriminate].
  destruct (Z.eq_dec c' c); [left; congruence|right; congruence]. Qed.


(** Channel-level setters. *)
Lemma cset_keep s c x k ks : synth_ok s -> is_ch c -> key_ok k ->
  (In (KAlg c) ks \/ (c_alg x = c_alg (chn s c) /\ c_fb x = c_fb (chn s c))) ->
  (In (KSt c) ks \/ (c_st x = c_st (chn s c) /\ c_ams x = c_ams (chn s c) /\ c_fms x = c_fms (chn s c))) ->
  (In (KHi c) ks /\ In (KLo c) ks \/ (c_oct x = c_oct (chn s c) /\ c_freq x = c_freq (chn s c)) \/
   (k <> KHi c /\ k <> KLo c)) ->
  ((forall g o, is_op o -> In (KOp g c o) ks) \/
   (c_ops x = c_ops (chn s c) /\ (c_alg x = c_alg (chn s c) \/ forall o, k <> KOp GTl c o))) ->
  In k ks \/ enc (set_ch s c x) k = enc s k.
Proof.
  intros Hs Hc Hk Ha Hst Hf Ho.
  destruct (key_chan_dec k c) as [E|E]; [|right; apply enc_set_ch_other; assumption].
  destruct (chan_case k c E) as [->|[->|[->|[->|(g & o & ->)]]]].
  - destruct Ha as [|[H1 H2]]; [left; assumption|right; unfold enc; rewrite chn_same, H1, H2 by assumption; reflexivity].
  - destruct Hst as [|(H1 & H2 & H3)]; [left; assumption|right; unfold enc; rewrite chn_same, H1, H2, H3 by assumption; reflexivity].
  - destruct Hf as [[]|[(H1 & H2)|[H1 H2]]]; [left; assumption|right; unfold enc; rewrite chn_same, H1, H2 by assumption; reflexivity|congruence].
  - destruct Hf as [[]|[(H1 & H2)|[H1 H2]]]; [left; assumption|right; unfold enc; rewrite chn_same, H2 by assumption; reflexivity|congruence].
  - destruct Hk as [_ Hop]. destruct Ho as [Ho|[H1 H2]]; [left; apply Ho; exact Hop|right].
    unfold enc, level, opr, oper. rewrite chn_same, H1 by assumption.
    destruct g; try reflexivity.
    destruct H2 as [->|H2]; [reflexivity|exfalso; eapply H2; reflexivity].
Qed.

(** Operator-level setters. *)
Definition gfields (g : group) (x : operator) : Z * Z :=
  match g with
  | GMul => (o_mul x, o_dt x) | GAr => (o_ar x, o_rs x) | GDr => (o_dr x, o_am x)
  | GSr => (o_sr x, 0) | GRr => (o_rr x, o_sl x) | GSsg => (o_ssg x, 0) | GTl => (o_tl x, 0)
  end.

Lemma oset_keep s c o x k ks : synth_ok s -> is_ch c -> is_op o -> key_ok k ->
  (forall g, In (KOp g c o) ks \/ gfields g x = gfields g (opr s c o)) ->
  In k ks \/ enc (set_ch s c (set_op (chn s c) o x)) k = enc s k.
Proof.
  intros Hs Hc Ho Hk H.
  destruct (key_chan_dec k c) as [E|E]; [|right; apply enc_set_ch_other; assumption].
  destruct (chan_case k c E) as [->|[->|[->|[->|(g & o' & ->)]]]];
  try (right; unfold enc; rewrite chn_same by assumption; reflexivity).
  destruct Hk as [_ Ho'].
  assert (F : gfields g (if o' =? o then x else opr s c o') = gfields g (opr s c o') \/ In (KOp g c o') ks).
  { destruct (Z.eqb_spec o' o) as [->|]; [|left; reflexivity]. destruct (H g); auto. }
  destruct F as [F|F]; [right|left; exact F].
  unfold enc; cbv zeta. rewrite opr_set_op by assumption.
  destruct g; cbn in F; injection F as F1; try (injection F as F2); unfold level; rewrite ?chn_same by assumption;
  repeat match goal with HF : _ = _ |- _ => rewrite HF; clear HF end; reflexivity.
Qed.

Lemma keep op s k : synth_ok s -> sop_ok op -> key_ok k -> ~ stale op k -> (forall p, op <> SInit p) ->
  In k (fkeys op s) \/ enc (post op s) k = enc s k.
Proof.
  intros Hs H Hk Hst Hni.
  destruct op; cbn [post fkeys sop_ok stale] in *; cbv zeta;
  try (match type of H with is_ch _ /\ _ => destruct H as [Hc H] end);
  try (match type of H with is_op _ /\ _ => destruct H as [Ho H] end);
  try (right; reflexivity);
  try (apply cset_keep; [assumption|assumption|assumption|cbn; auto|cbn; auto|cbn; auto|cbn; auto]; fail);
  try (apply oset_keep; [assumption|assumption|assumption|assumption|intros []; cbn; auto]; fail).
  - exfalso; eapply Hni; reflexivity.
  - destruct (_ =? _); [right; reflexivity|].
    destruct k as [c'|c'|g c' o|c'|c'| | |]; try (right; reflexivity).
    destruct g; try (right; reflexivity).
    destruct Hk as [Hc' Ho]. destruct (Z.eq_dec c' c) as [->|Hne].
    + left. destruct (op_cases o Ho) as [-> | [-> | [-> | ->]]]; cbn; tauto.
    + right. apply enc_set_vol_other; auto; [split; assumption|]. intros o' E'; inversion E'; contradiction.
  - apply cset_keep; [assumption|assumption|assumption|cbn; auto|cbn; auto|cbn; auto|].
    right; split; [reflexivity|]. right. intros o ->. apply Hst. eauto.
  - destruct (_ =? _); [right; reflexivity|].
    apply oset_keep; [assumption|assumption|assumption|assumption|intros []; cbn; auto].
  - destruct k; try (right; reflexivity). left; cbn; auto.
  - destruct k; try (right; reflexivity). left; cbn; auto.
  - apply cset_keep; [assumption|assumption|assumption|cbn; auto|cbn; auto|right; right; tauto|].
    left. intros g o Ho. destruct (op_cases o Ho) as [-> | [-> | [-> | ->]]], g; cbn; tauto.
  - destruct k; try (right; reflexivity). left; cbn; auto.
  - destruct k; try (right; reflexivity). left; cbn; auto.
Qed.

(** ** The mirror invariant under one call *)
Lemma unkeyed_0x28 d : unkeyed (0, 0x28, d).
Proof. intros k Hk E. cbn in E. assert (D := dec_addr_addr k Hk). rewrite <- E in D.
  change (dec_addr (0, 0x28)) with KDac in D. subst k. discriminate E. Qed.

Lemma addr_managed k : key_ok k -> managed (fst (addr k)) (snd (addr k)).
Proof.
  destruct k as [c|c|g c o|c|c| | |]; cbn [key_ok addr fst snd]; intros H; unfold managed;
  try (left; split; [reflexivity|tauto]); right;
  try (unfold is_ch, chan_reg in *; lia).
  destruct H as [Hc Ho]. unfold is_ch, oper_reg in *.
  destruct (op_cases o Ho) as [-> | [-> | [-> | ->]]], g; cbn; lia.
Qed.

Lemma unkeyed_unmanaged p r d : ~ managed p r -> unkeyed (p, r, d).
Proof. intros H k Hk E. apply H. cbn in E. replace p with (fst (addr k)) by (rewrite <- E; reflexivity).
  replace r with (snd (addr k)) by (rewrite <- E; reflexivity). apply addr_managed; exact Hk. Qed.

Lemma fkeys_ok op s k : sop_ok op -> In k (fkeys op s) -> key_ok k.
Proof.
  intros H Hin.
  destruct op; cbn [fkeys sop_ok] in *; try contradiction;
  try (match type of H with is_ch _ /\ _ => destruct H as [Hc H] end);
  try (match type of H with is_op _ /\ _ => destruct H as [Ho H] end);
  try (cbn in Hin; repeat (destruct Hin as [<-|Hin]; [cbn; auto; fail|]); contradiction).
  - apply in_app_or in Hin. destruct Hin as [Hin|Hin]; [cbn in Hin; destruct Hin as [<-|[<-|[]]]; exact I|].
    apply in_app_or in Hin. destruct Hin as [Hin|Hin]; [|cbn in Hin; destruct Hin as [<-|[]]; exact I].
    apply in_flat_map in Hin. destruct Hin as (c & Hc & Hin).
    apply (chankeys_ok c k); [|exact Hin]. unfold is_ch; cbn in Hc; lia.
  - destruct (_ =? _); [contradiction|]. apply in_map_iff in Hin. destruct Hin as (o & <- & Ho).
    split; [exact Hc|unfold is_op; cbn in Ho; lia].
  - destruct (_ =? _); [contradiction|]. destruct Hin as [<-|[]]. split; assumption.
  - apply (chankeys_ok c k); assumption.
Qed.

Lemma addr_sm_unkeyed o d b : 0 <= o < 3 -> b = 0xAC \/ b = 0xA8 -> unkeyed (0, u8 (b + u8 ((o + 1) mod 3)), d).
Proof. intros Ho Hb. apply unkeyed_unmanaged. unfold managed, u8. lia. Qed.

Lemma mir_post X op s r : synth_ok s -> sop_ok op -> (forall p, op <> SInit p) -> mir X s r ->
  mir (fun k => (X k /\ ~ stale op k) \/ In k (fkeys op s)) (post op s) (rrun r (writes op s)).
Proof.
  intros Hs H Hni Hm.
  assert (G : forall junk, Forall unkeyed junk ->
    mir (fun k => (X k /\ ~ stale op k) \/ In k (fkeys op s)) (post op s) (rrun r (junk ++ flush (post op s) (fkeys op s)))).
  { intros junk Hj. apply (mir_step X _ s); [|exact Hj|intros k; apply fkeys_ok; exact H|exact Hm].
    intros k Hk [[HX Hst]|Hin]; [|left; exact Hin].
    destruct (keep op s k Hs H Hk Hst Hni); auto. }
  destruct op; [exfalso; eapply Hni; reflexivity|..]; try exact (G [] (Forall_nil _)).
  - exact (G _ (Forall_cons _ (unkeyed_0x28 _) (Forall_nil _))).
  - exact (G _ (Forall_cons _ (unkeyed_0x28 _) (Forall_nil _))).
  - destruct H as (H1 & H2 & H3). cbn [writes].
    apply (G [_; _]). constructor; [apply addr_sm_unkeyed; auto|constructor; [apply addr_sm_unkeyed; auto|constructor]].
  - (* special volume *)
    destruct H as [Ho Hv]. intros k Hk [[HX Hst]|[]]. cbn [post writes fkeys stale] in *.
    rewrite rrun_other; [apply Hm; assumption|].
    intros w Hw E. destruct (is_output_operator _ _); [|contradiction].
    destruct Hw as [<-|[]]. cbn [fst] in E. apply Hst. symmetry. apply addr_inj; [|exact Hk|].
    + split; [unfold is_ch; lia|exact Ho].
    + rewrite E. destruct (addr k); reflexivity.
  - (* direct write *)
    intros k Hk [[HX Hst]|[]]. cbn [post writes fkeys stale] in *.
    rewrite rrun_other; [apply Hm; assumption|].
    intros w [<-|[]] E. cbn [fst] in E. apply Hst. rewrite E. destruct (addr k); reflexivity.
Qed.

Definition not_pitch (k : key) : Prop := forall c, k <> KHi c /\ k <> KLo c.

Lemma enc_init_chan_other p s c k : synth_ok s -> is_ch c -> key_ok k -> key_chan k <> Some c ->
  enc (init_chan p s c) k = enc s k.
Proof.
  intros Hs Hc Hk Hn. unfold init_chan.
  assert (Hv : synth_ok (set_vol s c MAX_VOLUME)) by (apply set_vol_ok; [exact Hs|unfold MAX_VOLUME; lia]).
  rewrite enc_set_ch_other by assumption. apply enc_set_vol_other; auto.
  intros o ->. apply Hn; reflexivity.
Qed.

Lemma mir_init p s r : synth_ok s -> preset_ok p ->
  mir not_pitch (post (SInit p) s) (rrun r (writes (SInit p) s)).
Proof.
  intros Hs Hp. cbn [writes]. cbv zeta. rewrite !rrun_app.
  set (s0 := init_dac s). assert (H0 : synth_ok s0) by (apply init_dac_ok; exact Hs).
  assert (G : forall l (done : list Z) st w rr, synth_ok st -> (forall c, In c l -> is_ch c) ->
    mir (fun k => k = KDac \/ k = KMode \/ (not_pitch k /\ exists c, key_chan k = Some c /\ In c done)) st (rrun rr w) ->
    exists w', fold_left (init_acc p) l (st, w) = (fold_left (init_chan p) l st, w') /\
    mir (fun k => k = KDac \/ k = KMode \/ (not_pitch k /\ exists c, key_chan k = Some c /\ (In c done \/ In c l)))
        (fold_left (init_chan p) l st) (rrun rr w')).
  { induction l as [|c t IH]; intros done st w rr Hst Hl Hm.
    - exists w. split; [reflexivity|]. eapply mir_weaken; [|exact Hm].
      intros k [|[|(Hn & c & Hc & [Hd|[]])]]; auto. right; right; split; [exact Hn|eauto].
    - assert (Hc : is_ch c) by (apply Hl; left; reflexivity).
      assert (Hi : synth_ok (init_chan p st c)) by (apply init_chan_ok; assumption).
      cbn [fold_left]. unfold init_acc at 2; cbn [fst snd]; cbv zeta.
      destruct (IH (c :: done) (init_chan p st c)
        (w ++ [(0, 0x28, key_on_off_reg_offset c)] ++ flush (init_chan p st c) (chankeys c)) rr Hi)
        as (w' & E & Hm').
      + intros; apply Hl; right; assumption.
      + rewrite rrun_app.
        eapply (mir_step _ _ st); [|constructor; [apply unkeyed_0x28|constructor]| |exact Hm].
        * intros k Hk [->|[->|(Hn & c' & Hc' & Hd)]].
          -- right; split; [auto|]. apply enc_init_chan_other; auto. discriminate.
          -- right; split; [auto|]. apply enc_init_chan_other; auto. discriminate.
          -- destruct (Z.eq_dec c' c) as [->|Hne].
             ++ left. destruct (in_chankeys k c Hk Hc') as [|[->| ->]]; [assumption| |]; exfalso;
                destruct (Hn c) as [N1 N2]; [apply N1|apply N2]; reflexivity.
             ++ right. split; [right; right; split; [exact Hn|exists c'; split; [exact Hc'|]]|].
                ** destruct Hd as [<-|Hd]; [contradiction|exact Hd].
                ** apply enc_init_chan_other; auto. congruence.
        * intros k Hk. apply (chankeys_ok c k Hc Hk).
      + exists w'. split; [exact E|]. eapply mir_weaken; [|exact Hm'].
        intros k [|[|(Hn & c' & Hc' & [Hd|Hd])]]; auto.
        * right; right; split; [exact Hn|]. exists c'. split; [exact Hc'|]. left; right; exact Hd.
        * right; right; split; [exact Hn|]. exists c'. split; [exact Hc'|]. destruct Hd as [<-|Hd]; [left; left|right]; auto. }
  destruct (G [0;1;2;3;4;5] [] s0 [] (rrun r [wk s0 KDac; wk s0 KMode]) H0) as (w' & E & Hm).
  - unfold is_ch; cbn; intros; lia.
  - cbn [rrun fold_left]. apply (mir_step (fun _ => False) _ s0 s0 r [] [KDac; KMode]).
    + intros k Hk [->|[->|(_ & c & _ & [])]]; left; cbn; auto.
    + constructor.
    + intros k [<-|[<-|[]]]; exact I.
    + intros k _ [].
  - rewrite E. cbn [snd]. cbn [post]. fold s0.
    set (sf := fold_left (init_chan p) [0;1;2;3;4;5] s0) in *.
    eapply (mir_step _ not_pitch sf sf _ [] [KLfo]); [|constructor| |exact Hm].
    + intros k Hk Hn. destruct (key_chan k) as [c|] eqn:Ec.
      * right; split; [|reflexivity]. right; right. split; [exact Hn|]. exists c. split; [exact Ec|]. right.
        assert (is_ch c) by (destruct k; cbn in *; inversion Ec; subst; tauto).
        destruct (ch_cases c) as [-> | [-> | [-> | [-> | [-> | ->]]]]]; cbn; auto 10.
      * destruct k; try discriminate; [left; cbn; auto|right; auto|right; auto].
    + intros k [<-|[]]; exact I.
Qed.

(** ** Running histories *)
Lemma run_ind (side : sop -> Prop) (I : synth -> list event -> Prop) :
  (forall op s tr o, I s tr -> synth_ok s -> sop_ok op -> side op ->
     synth_step op s = Done tt (post op s) o -> ymw o = writes op s -> busrel s o (post op s) ->
     I (post op s) (tr ++ o)) ->
  forall ops s tr, Forall sop_ok ops -> Forall side ops -> synth_ok s -> I s tr ->
  exists s' o, synth_run ops s = Done tt s' o /\ synth_ok s' /\ I s' (tr ++ o).
Proof.
  intros HI. unfold synth_run. induction ops as [|op t IH]; intros s tr Ho Hd Hs Hi.
  - exists s, []. split; [reflexivity|split; [exact Hs|rewrite app_nil_r; exact Hi]].
  - inversion Ho as [|? ? Ho1 Ho2]; subst. inversion Hd as [|? ? Hd1 Hd2]; subst.
    destruct (step_runs op s Hs Ho1) as (o1 & E1 & W1 & B1).
    destruct (IH (post op s) (tr ++ o1) Ho2 Hd2 (post_ok op s Hs Ho1)) as (s' & o2 & E2 & Hs' & Hi').
    + eapply HI; eassumption.
    + exists s', (o1 ++ o2). split; [|split; [exact Hs'|rewrite app_assoc; exact Hi']].
      cbn [runM]. unfold bind. rewrite E1, E2. reflexivity.
Qed.

Lemma synth0_ok : synth_ok synth0.
Proof.
  unfold synth_ok, synth0; cbn.
  assert (O : op_ok op0) by (unfold op_ok; cbn; lia).
  assert (C : chan_ok chan0). { unfold chan_ok; cbn. repeat (split; [lia|]). auto. }
  repeat (split; [lia|]). split; [auto 10|]. split; [reflexivity|].
  repeat (constructor; [lia|]). constructor.
Qed.

(** A history that starts with [synth_init]. *)
Lemma run_from_init (side : sop -> Prop) (I : synth -> list event -> Prop) p ops s0 :
  synth_ok s0 -> preset_ok p -> Forall sop_ok ops -> Forall side ops ->
  (forall o, synth_step (SInit p) s0 = Done tt (post (SInit p) s0) o ->
     ymw o = writes (SInit p) s0 -> busrel s0 o (post (SInit p) s0) -> I (post (SInit p) s0) o) ->
  (forall op s tr o, I s tr -> synth_ok s -> sop_ok op -> side op ->
     synth_step op s = Done tt (post op s) o -> ymw o = writes op s -> busrel s o (post op s) ->
     I (post op s) (tr ++ o)) ->
  exists s tr, synth_run (SInit p :: ops) s0 = Done tt s tr /\ synth_ok s /\ I s tr.
Proof.
  intros Hs Hp Ho Hd H0 HI.
  destruct (step_runs (SInit p) s0 Hs Hp) as (o1 & E1 & W1 & B1).
  destruct (run_ind side I HI ops (post (SInit p) s0) o1 Ho Hd (post_ok (SInit p) s0 Hs Hp)) as (s' & o2 & E2 & Hs' & Hi').
  - apply H0; assumption.
  - exists s', (o1 ++ o2). split; [|split; assumption].
    unfold synth_run in *. cbn [runM]. unfold bind. rewrite E1, E2. reflexivity.
Qed.
