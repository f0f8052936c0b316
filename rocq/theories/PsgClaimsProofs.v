(** The PSG claims. *)
From Verif Require Import Base BaseLemmas PitchModel PitchSpec PitchProofs PsgModel PsgSpec PsgProofs PsgRunProofs.

Section Claims.
Context (pal : bool) (envs : list (list Z)) (Henvs : envs_ok envs).

(** ** One operation seen from one channel *)
Definition cstep (c : Z) (op : pop) (s : psg) (ch : psgchan) (s' : psg) (ch' : psgchan) (o : list event) : Prop :=
  zget (ps_chans s) c = Some ch /\ (zget (ps_chans s') c = Some ch' /\ psg_step pal envs op s = Done tt s' o) /\
  ch' = fst (exec1 pal envs (ps_user s) (ps_userp s) (target c op) ch) /\
  proj c o = snd (exec1 pal envs (ps_user s) (ps_userp s) (target c op) ch) /\
  (is_load op \/ (ps_user s' = ps_user s /\ ps_userp s' = ps_userp s)).

Lemma step_chan ue op s c ch : psg_inv envs ue s -> pop_ok op -> op <> PReset -> zget (ps_chans s) c = Some ch ->
  exists ue' s' ch' o, psg_step pal envs op s = Done tt s' o /\ psg_inv envs ue' s' /\ cstep c op s ch s' ch' o.
Proof.
  intros Hs Hop Hr Hc. destruct (plain_dec op) as [Hp|[->|Hl]]; [|contradiction|].
  - destruct (plain_exec pal envs Henvs ue op s Hs Hop Hp) as (s' & o & E & A). assert (A' := A).
    destruct A' as (U & P & L & C). destruct (C c ch Hc) as [G Q].
    exists ue, s', (fst (exec1 pal envs (ps_user s) (ps_userp s) (target c op) ch)), o.
    split; [exact E|split].
    + eapply agrees_inv; [exact Henvs|exact Hs|exact A|]. intros d k _ Ht. exact (target_ok d op k Hop Ht).
    + split; [exact Hc|split; [split; [exact G|exact E]|split; [reflexivity|split; [exact Q|right; auto]]]].
  - destruct op; cbn in Hl; try contradiction.
    destruct (load_exec pal envs ue s eef Hs Hop) as (ue' & u' & _ & E & Hi).
    exists ue', (mkPsgSt (ps_chans s) u' true), ch, []. split; [exact E|split; [exact Hi|]].
    split; [exact Hc|split; [split; [exact Hc|exact E]|split; [reflexivity|split; [reflexivity|left; exact I]]]].
Qed.

(** Induction over a history, following one channel. *)
Lemma run_chan (c : Z) (Q : pop -> Prop) (J : list pop -> psg -> psgchan -> list event -> Prop) :
  (forall ue hist op s ch s' ch' tr o, psg_inv envs ue s -> pop_ok op -> op <> PReset -> Q op -> J hist s ch tr ->
     cstep c op s ch s' ch' o -> J (hist ++ [op]) s' ch' (tr ++ o)) ->
  forall ops ue hist s ch tr, psg_inv envs ue s -> Forall pop_ok ops -> ~ In PReset ops -> Forall Q ops ->
    zget (ps_chans s) c = Some ch -> J hist s ch tr ->
    exists ue' s' ch' o, psg_run pal envs ops s = Done tt s' o /\ psg_inv envs ue' s' /\
      zget (ps_chans s') c = Some ch' /\ J (hist ++ ops) s' ch' (tr ++ o).
Proof.
  intros HJ. induction ops as [|op t IH]; intros ue hist s ch tr Hs Hok Hr HQ Hc H.
  - exists ue, s, ch, []. rewrite !app_nil_r. split; [reflexivity|auto].
  - inversion Hok as [|? ? Hop Hok']; subst. inversion HQ as [|? ? HQ1 HQ2]; subst.
    assert (Hne : op <> PReset) by (intros ->; apply Hr; left; reflexivity).
    destruct (step_chan ue op s c ch Hs Hop Hne Hc) as (ue1 & s1 & ch1 & o1 & E1 & Hs1 & C1).
    destruct (IH ue1 (hist ++ [op]) s1 ch1 (tr ++ o1)) as (ue2 & s2 & ch2 & o2 & E2 & Hs2 & G2 & J2); auto.
    + intros HI; apply Hr; right; exact HI.
    + exact (proj1 (proj1 (proj2 C1))).
    + exact (HJ ue hist op s ch s1 ch1 tr o1 Hs Hop Hne HQ1 H C1).
    + exists ue2, s2, ch2, (o1 ++ o2). rewrite <- !app_assoc in J2. cbn in J2.
      split; [|split; [exact Hs2|split; [exact G2|exact J2]]].
      unfold psg_run in *. cbn [runM]. unfold bind. rewrite E1, E2. reflexivity.
Qed.

Lemma run_split a b s s2 tr : psg_run pal envs (a ++ b) s = Done tt s2 tr ->
  exists s1 t1 t2, psg_run pal envs a s = Done tt s1 t1 /\ psg_run pal envs b s1 = Done tt s2 t2 /\ tr = t1 ++ t2.
Proof.
  revert s tr; induction a as [|x t IH]; intros s tr E.
  - exists s, [], tr. auto.
  - unfold psg_run in *. cbn [app runM] in *. unfold bind in *.
    destruct (psg_step pal envs x s) as [u s' o|f]; [|discriminate]. 
    destruct (runM (psg_step pal envs) (t ++ b) s') as [u' s'' o'|f] eqn:E'; [|discriminate].
    destruct u'. injection E as <- <-. destruct (IH s' o' E') as (s1 & t1 & t2 & E1 & E2 & ->).
    exists s1, (o ++ t1), t2. rewrite E1. split; [reflexivity|split; [exact E2|apply app_assoc]].
Qed.

(** ** C24 *)
Lemma pok_inside ue user up p : ue_ok user up ue -> pok envs ue p -> inside envs user p.
Proof.
  intros (HL & HU & _). destruct p as [|i|k i]; cbn; [auto| |].
  - intros H. destruct HU as [->|[Hr HU]]; [lia|]. split; [lia|]. exists ue. split; [lia|exact HU].
  - intros (e & n & E & Hi & Hn & Hf). exists e. split; [exact E|]. assert (R := zget_Some _ _ _ Hn).
    split; [lia|split; [intros j Hj; apply Hf; lia|exists n; split; [lia|exact Hn]]].
Qed.

Lemma c24 ops : Forall pop_ok ops ->
  exists s tr, psg_run pal envs (PReset :: ops) psg0 = Done tt s tr /\ length (ps_chans s) = 4%nat /\
    forall c ch, zget (ps_chans s) c = Some ch ->
      inside envs (ps_user s) (g_step ch) /\ (g_loop ch = ENull \/ inside envs (ps_user s) (g_loop ch)).
Proof.
  intros Hops. rewrite boot_run by exact Henvs.
  destruct (run_inv pal envs Henvs ops Hops _ _ (boot_inv envs Henvs)) as (ue & s & tr & _ & E & [[HL HU] Hi]).
  exists s, tr. split; [exact E|split; [exact HL|]]. intros c ch Hc.
  destruct (Hi c ch Hc) as [_ (_ & _ & K3 & K4 & _)].
  split; [eapply pok_inside; eassumption|]. destruct (g_loop ch) eqn:El; [left; reflexivity|right; rewrite <- El..];
  eapply pok_inside; try eassumption; rewrite El; apply K4; reflexivity.
Qed.

(** ** C27: the mirror *)
Definition mirror (c : Z) (hist : list pop) (s : psg) (ch : psgchan) (tr : list event) : Prop :=
  g_num ch = c /\ chip_att att_at_boot tr c = g_att ch /\ chip_tone tone_at_boot tr c = g_freq ch.

Lemma exec1_rel u up t ch : crel ch (snd (exec1 pal envs u up t ch)) (fst (exec1 pal envs u up t ch)).
Proof. destruct t as [k|]; cbn; [apply cexec_rel|apply crel_nil; unfold same; tauto]. Qed.

Lemma mirror_step c op hist s ch s' ch' tr o : mirror c hist s ch tr -> cstep c op s ch s' ch' o -> mirror c (hist ++ [op]) s' ch' (tr ++ o).
Proof.
  intros (M1 & M2 & M3) (_ & _ & -> & Q & _).
  destruct (exec1_rel (ps_user s) (ps_userp s) (target c op) ch) as (R1 & _ & R3 & R4). rewrite M1 in *.
  split; [exact R1|]. rewrite chip_att_app, chip_tone_app, <- (chip_att_proj _ o), <- (chip_tone_proj _ o), Q, M2, M3. auto.
Qed.

Lemma boot_chan c : is_psg c -> zget (ps_chans boot_state) c = Some (reset_chan c).
Proof.
  intros H. unfold is_psg in H. assert (Cs : c = 0 \/ c = 1 \/ c = 2 \/ c = 3) by lia.
  destruct Cs as [-> | [-> | [-> | ->]]]; reflexivity.
Qed.
Lemma boot_mirror c : mirror c [] boot_state (reset_chan c) [].
Proof. split; [reflexivity|split; reflexivity]. Qed.

Lemma always {A} (l : list A) : Forall (fun _ => True) l.
Proof. induction l; auto. Qed.

Lemma c27 ops c s tr : Forall pop_ok ops -> ~ In PReset ops -> is_psg c ->
  psg_run pal envs (PReset :: ops) psg0 = Done tt s tr ->
  exists ch, zget (ps_chans s) c = Some ch /\ chip_att att_at_boot tr c = g_att ch /\ chip_tone tone_at_boot tr c = g_freq ch /\
    0 <= chip_att att_at_boot tr c <= 15 /\ 0 <= chip_tone tone_at_boot tr c < 1024 /\
    (g_on ch = false -> chip_att att_at_boot tr c = 15).
Proof.
  intros Hok Hr Hc E. rewrite boot_run in E by exact Henvs.
  destruct (run_chan c (fun _ => True) (mirror c)) with (ops := ops) (ue := -1) (hist := @nil pop) (s := boot_state)
    (ch := reset_chan c) (tr := @nil event) as (ue' & s' & ch & o & E' & Hi & G & (M1 & M2 & M3)); auto using always, boot_chan, boot_mirror, boot_inv.
  - intros. eapply mirror_step; eassumption.
  - rewrite E in E'. injection E' as <- <-. cbn [app] in *. exists ch. split; [exact G|].
    destruct (proj2 Hi c ch G) as [_ (_ & _ & _ & _ & _ & _ & K1 & K2 & K3)].
    rewrite M2, M3. split; [reflexivity|split; [reflexivity|split; [exact K1|split; [exact K2|]]]].
    intros Ho. apply K3. exact Ho.
Qed.

(** ** C11 and C66: what a sounding channel plays *)
Definition sync (user : list Z) (ch : psgchan) : Prop :=
  g_on ch = true -> exists b, peek envs user (g_step ch) = Some b /\ g_att ch = level_of b ch /\ g_freq ch = tone_of pal b ch.

Lemma settle_sync ue user up ch : ue_ok user up ue -> ptrs_ok envs ue ch -> sync user (fst (settle pal envs user ch)).
Proof.
  intros Hue Hp. unfold settle. cbv zeta. assert (P := walk_ptrs envs user up ue Hue ch Hp).
  destruct (pok_has envs user up ue Hue _ (proj1 P)) as [b Hb]. rewrite Hb.
  destruct (b =? EEF_END).
  - destruct (is_null (g_loop (walk envs user ch))) eqn:En; cbn [negb andb]; [intros H; discriminate H|].
    destruct (g_rel (walk envs user ch)); cbn [negb]; [intros H; discriminate H|].
    destruct (pok_has envs user up ue Hue _ (proj2 P En)) as [b' Hb']. rewrite Hb'. cbn [fst].
    intros _. exists b'. split; [exact Hb'|split; reflexivity].
  - intros _. exists b. split; [exact Hb|split; reflexivity].
Qed.

Lemma cexec_sync ue user up k ch : ue_ok user up ue -> chok envs ue ch -> cop_ok k -> sync user ch ->
  sync user (fst (cexec pal envs user up k ch)).
Proof.
  intros Hue Hch Hk Hsy. assert (Hp : ptrs_ok envs ue ch) by (split; apply Hch).
  destruct k as [p ce v| |v|p| |p ce]; cbn [cexec].
  - eapply settle_sync; [exact Hue|]. eapply start_ptrs; eassumption.
  - destruct (g_on ch) eqn:Eo; [|exact Hsy]. destruct (is_null (g_loop ch)); [intros H; discriminate H|].
    intros _. destruct (Hsy Eo) as (b & Hb & Ha & Hf). exists b. auto.
  - cbv zeta. destruct (g_on ch) eqn:Eo; [|intros H; cbn in H; congruence].
    destruct (Hsy Eo) as (b & Hb & Ha & Hf). rewrite Hb. intros _. exists b. split; [exact Hb|]. split; [reflexivity|exact Hf].
  - exact Hsy.
  - destruct (g_on ch) eqn:Eo; [|exact Hsy]. eapply settle_sync; [exact Hue|]. eapply advance_ptrs; eassumption.
  - cbv zeta. destruct (pok_has envs user up ue Hue _ (proj1 Hp)) as [b Hb]. rewrite Hb. cbn [fst].
    intros Ho. exists b. split; [exact Hb|split; [|reflexivity]]. cbn in Ho.
    destruct (Hsy Ho) as (b0 & Hb0 & Ha & _). rewrite Hb in Hb0. injection Hb0 as <-. exact Ha.
Qed.

(** Fields set by the history. *)
Lemma settle_fields user ch : let d := fst (settle pal envs user ch) in
  g_pitch d = g_pitch ch /\ g_cents d = g_cents ch /\ g_vol d = g_vol ch /\ g_vel d = g_vel ch /\ g_env d = g_env ch.
Proof.
  cbv zeta. assert (W := walk_same envs user ch). destruct W as (W1&W2&W3&W4&W5&W6&W7&W8&W9&W10).
  unfold settle. cbv zeta. destruct (peek _ _ _); [|auto 6]. destruct (_ =? _); [|cbn; auto 6].
  destruct (_ && _); [|cbn; auto 6]. destruct (peek _ _ _); cbn; auto 6.
Qed.

Definition asked (c : Z) (hist : list pop) (ch : psgchan) : Prop :=
  g_pitch ch * 100 + g_cents ch = asked_pitch c 0 hist /\ g_vol ch = asked_volume c 127 hist /\ g_vel ch = asked_velocity c 127 hist.

Lemma asked_pitch_snoc c op : forall ops d, asked_pitch c d (ops ++ [op]) = asked_pitch c (asked_pitch c d ops) [op].
Proof. induction ops as [|x t IH]; intros d; [reflexivity|]. destruct x; cbn [app asked_pitch]; apply IH. Qed.
Lemma asked_volume_snoc c op : forall ops d, asked_volume c d (ops ++ [op]) = asked_volume c (asked_volume c d ops) [op].
Proof. induction ops as [|x t IH]; intros d; [reflexivity|]. destruct x; cbn [app asked_volume]; apply IH. Qed.
Lemma asked_velocity_snoc c op : forall ops d, asked_velocity c d (ops ++ [op]) = asked_velocity c (asked_velocity c d ops) [op].
Proof. induction ops as [|x t IH]; intros d; [reflexivity|]. destruct x; cbn [app asked_velocity]; apply IH. Qed.

Lemma ltb_leb p : negb (p <? 45) = (45 <=? p).
Proof. destruct (Z.ltb_spec p 45), (Z.leb_spec 45 p); try reflexivity; lia. Qed.

Lemma asked_step c op hist s ch s' ch' o : asked c hist ch -> pop_ok op -> op <> PReset -> cstep c op s ch s' ch' o -> asked c (hist ++ [op]) ch'.
Proof.
  intros (A1 & A2 & A3) Hop Hr (_ & _ & -> & _). unfold asked.
  rewrite asked_pitch_snoc, asked_volume_snoc, asked_velocity_snoc, <- A1, <- A2, <- A3. clear A1 A2 A3.
  generalize (ps_user s) (ps_userp s). intros user up.
  destruct op; cbn [target asked_pitch asked_volume asked_velocity]; try (cbn; auto; fail).
  - rewrite ltb_leb. destruct ((c0 =? c) && (45 <=? pitch)); [|cbn; auto]. cbn [exec1 cexec].
    destruct (settle_fields user (start up pitch cents vel ch)) as (F1&F2&F3&F4&_).
    rewrite F1, F2, F3, F4. cbn. auto.
  - destruct (c0 =? c); [|cbn; auto]. cbn. destruct (g_on ch); [|cbn; auto]. destruct (is_null _); cbn; auto.
  - destruct (c0 =? c); [|cbn; auto]. cbn. destruct (g_on ch); [|cbn; auto]. destruct (is_null _); cbn; auto.
  - destruct (c0 =? c); [|cbn; auto]. cbn. destruct (g_on ch); [|cbn; auto]. destruct (peek _ _ _); cbn; auto.
  - destruct (c0 =? c); cbn; auto.
  - cbn. destruct (g_on ch); [|auto].
    destruct (settle_fields user (advance envs user ch)) as (F1&F2&F3&F4&_). rewrite F1, F2, F3, F4.
    destruct (advance_same envs user ch) as (_&B2&B3&_&_&_&B7&B8&_). rewrite B2, B3, B7, B8. auto.
  - destruct (c0 =? c); [|cbn; auto]. cbn. destruct (peek _ _ _); cbn; auto.
Qed.

Lemma exec1_sync ue s c op ch : psg_inv envs ue s -> zget (ps_chans s) c = Some ch -> pop_ok op -> sync (ps_user s) ch ->
  sync (ps_user s) (fst (exec1 pal envs (ps_user s) (ps_userp s) (target c op) ch)).
Proof.
  intros Hs Hc Hop Hsy. destruct (target c op) as [k|] eqn:Et; [|exact Hsy]. cbn [exec1].
  eapply cexec_sync; [apply Hs|apply (proj2 Hs c ch Hc)|eapply target_ok; eassumption|exact Hsy].
Qed.

Lemma shift_total b p ce : 0 <= p < 256 -> 0 <= ce < 100 -> 0 <= b < 256 ->
  0 <= p * 100 + ce + nth (Z.to_nat (b / 16)) shift_cents 0 < 25600 ->
  total (envelope_shift (u8 (Z.shiftr b 4)) (mkPc p ce)) = p * 100 + ce + nth (Z.to_nat (b / 16)) shift_cents 0 /\
  0 <= pc_cents (envelope_shift (u8 (Z.shiftr b 4)) (mkPc p ce)) < 100.
Proof.
  intros Hp Hc Hb. rewrite Z.shiftr_div_pow2 by lia. change (2 ^ 4) with 16.
  assert (Hd : 0 <= b / 16 < 16) by (split; [apply Z.div_pos; lia|apply Z.div_lt_upper_bound; lia]).
  rewrite u8_id by lia. generalize dependent (b / 16). clear b Hb. intros x Hx Hr.
  assert (PS : forall a, 0 <= p * 100 + ce + a < 25600 ->
     total (pc_shift (mkPc p ce) a) = p * 100 + ce + a /\ 0 <= pc_cents (pc_shift (mkPc p ce) a) < 100).
  { intros a Ha. destruct (pc_shift_exact (mkPc p ce) a Ha) as (T1 & T2 & _). auto. }
  assert (SE : forall a n, 0 <= p * 100 + ce + n < 25600 -> n = a * 100 ->
     total (mkPc (u8 (p + a)) ce) = p * 100 + ce + n /\ 0 <= pc_cents (mkPc (u8 (p + a)) ce) < 100).
  { intros a n Ha ->. rewrite u8_id by lia. unfold total; cbn. lia. }
  assert (Cs : x = 0 \/ x = 1 \/ x = 2 \/ x = 3 \/ x = 4 \/ x = 5 \/ x = 6 \/ x = 7 \/ x = 8 \/ x = 9 \/ x = 10 \/ x = 11 \/ x = 12 \/ x = 13 \/ x = 14 \/ x = 15) by lia.
  repeat (destruct Cs as [Cs|Cs]); rewrite Cs in Hr |- *; clear Cs;
  match type of Hr with context [nth (Z.to_nat ?k) shift_cents 0] =>
    let v := eval vm_compute in (nth (Z.to_nat k) shift_cents 0) in change (nth (Z.to_nat k) shift_cents 0) with v in Hr |- * end;
  cbn [envelope_shift];
  first [apply PS; exact Hr | apply (SE 1); [exact Hr|reflexivity] | apply (SE 2); [exact Hr|reflexivity]
     | apply (SE 5); [exact Hr|reflexivity] | apply (SE (-1)); [exact Hr|reflexivity] | apply (SE (-2)); [exact Hr|reflexivity]
     | apply (SE (-5)); [exact Hr|reflexivity] | (unfold total; cbn; lia)].
Qed.

Lemma tone_of_total b ch : 0 <= g_pitch ch < 256 -> 0 <= g_cents ch < 100 -> 0 <= b < 256 ->
  0 <= g_pitch ch * 100 + g_cents ch + nth (Z.to_nat (b / 16)) shift_cents 0 < 25600 ->
  tone_of pal b ch = psg_tone pal (g_pitch ch * 100 + g_cents ch + nth (Z.to_nat (b / 16)) shift_cents 0).
Proof.
  intros Hp Hc Hb Hr. destruct (shift_total b _ _ Hp Hc Hb Hr) as [T C]. unfold tone_of, psg_tone. rewrite <- T.
  destruct (envelope_shift _ _) as [p' c']. unfold total in *. cbn in *.
  replace ((p' * 100 + c') / 100) with p' by (apply Z.div_unique with c'; lia).
  replace ((p' * 100 + c') mod 100) with c' by (apply Z.mod_unique with p'; lia).
  destruct (tone_total pal (mkPc p' c')) as [t ->]. reflexivity.
Qed.

Definition sounding (c : Z) (hist : list pop) (s : psg) (ch : psgchan) (tr : list event) : Prop :=
  mirror c hist s ch tr /\ asked c hist ch /\ sync (ps_user s) ch.

Lemma sounding_step c ue hist op s ch s' ch' tr o : psg_inv envs ue s -> pop_ok op -> op <> PReset -> ~ is_load op ->
  sounding c hist s ch tr -> cstep c op s ch s' ch' o -> sounding c (hist ++ [op]) s' ch' (tr ++ o).
Proof.
  intros Hs Hop Hr Hl (S1 & S2 & S3) C. split; [eapply mirror_step; eassumption|]. split; [eapply asked_step; eassumption|].
  destruct C as (Hc & _ & -> & _ & [?|[-> _]]); [contradiction|]. eapply exec1_sync; eassumption.
Qed.

Lemma peek_byte_rom ue user up p b : ue_ok user up ue -> Forall byte user -> pok envs ue p -> peek envs user p = Some b -> 0 <= b < 256.
Proof.
  intros Hue Hu Hp Hb. destruct p as [|i|k i]; cbn in *; [contradiction| |].
  - eapply Forall_zget in Hb; [|exact Hu]. exact Hb.
  - destruct (zget envs k) as [e|] eqn:E; [|discriminate].
    assert (Ht : terminated e) by (eapply Forall_zget; [apply Henvs|exact E]).
    eapply Forall_zget in Hb; [|apply Ht]. exact Hb.
Qed.

Lemma c11_c66 ops c s tr : Forall pop_ok ops -> ~ In PReset ops -> Forall (fun op => ~ is_load op) ops -> is_psg c ->
  psg_run pal envs (PReset :: ops) psg0 = Done tt s tr ->
  exists ch, zget (ps_chans s) c = Some ch /\
    (g_on ch = false -> chip_att att_at_boot tr c = 15) /\
    (g_on ch = true -> exists b, peek envs (ps_user s) (g_step ch) = Some b /\ 0 <= b < 256 /\
       chip_att att_at_boot tr c = psg_level (asked_volume c 127 ops) (asked_velocity c 127 ops) (b mod 16) /\
       (0 <= asked_pitch c 0 ops + nth (Z.to_nat (b / 16)) shift_cents 0 < 25600 ->
        chip_tone tone_at_boot tr c = psg_tone pal (asked_pitch c 0 ops + nth (Z.to_nat (b / 16)) shift_cents 0))).
Proof.
  intros Hok Hr Hl Hc E. rewrite boot_run in E by exact Henvs.
  destruct (run_chan c (fun op => ~ is_load op) (fun h s ch tr => sounding c h s ch tr /\ ps_user s = repeat 0 256)) with (ops := ops) (ue := -1) (hist := @nil pop) (s := boot_state)
    (ch := reset_chan c) (tr := @nil event) as (ue' & s' & ch & o & E' & Hi & G & ((M1 & M2 & M3) & (A1 & A2 & A3) & Sy) & HU);
    auto using always, boot_chan, boot_inv.
  - intros ue hist op s0 ch s1 ch' tr0 o Hs Hop Hr0 Hl0 [HS HU] C. split; [eapply sounding_step; eassumption|].
    destruct C as (_ & _ & _ & _ & [?|[-> _]]); [contradiction|exact HU].
  - split; [|reflexivity]. split; [apply boot_mirror|]. split; [split; [reflexivity|split; reflexivity]|]. intros H; discriminate H.
  - rewrite E in E'. injection E' as <- <-. cbn [app] in *. exists ch. split; [exact G|].
    destruct (proj2 Hi c ch G) as [_ K]. destruct K as (K1 & K2 & K3 & K4 & K5 & K6 & K7 & K8 & K9).
    rewrite M2, M3. split; [intros Ho; apply K9; exact Ho|]. intros Ho.
    destruct (Sy Ho) as (b & Hb & Ha & Hf). exists b.
    assert (Bb : 0 <= b < 256).
    { eapply peek_byte_rom; [apply Hi| |exact K3|exact Hb]. rewrite HU. apply Forall_forall. intros x Hx. apply repeat_spec in Hx. subst. unfold byte. lia. }
    split; [exact Hb|split; [exact Bb|split; [rewrite Ha; unfold level_of; rewrite A2, A3; reflexivity|]]].
    rewrite <- A1, Hf. intros Hr'. apply tone_of_total; auto.
Qed.

(** ** C26 *)
Definition looping (ch : psgchan) : Prop := g_on ch = true /\ g_rel ch = false /\ is_null (g_loop ch) = false.

Lemma pnext_null p : is_null p = false -> is_null (pnext p) = false.
Proof. destruct p; auto. Qed.
Lemma peek_null user p b : peek envs user p = Some b -> is_null p = false.
Proof. destruct p; cbn; [discriminate|reflexivity..]. Qed.

Lemma settle_looping ue user up ch : ue_ok user up ue -> ptrs_ok envs ue ch -> looping ch -> looping (fst (settle pal envs user ch)).
Proof.
  intros Hue Hp (L1 & L2 & L3). assert (W := walk_same envs user ch). destruct W as (W1&W2&W3&W4&W5&W6&W7&W8&W9&W10).
  assert (P := walk_ptrs envs user up ue Hue ch Hp).
  assert (N : is_null (g_loop (walk envs user ch)) = false).
  { unfold walk, walk2, walk1. destruct (peek envs user (g_step ch)) as [b|] eqn:E.
    - destruct (b =? EEF_LOOP_START).
      + cbn. destruct (peek envs user (pnext (g_step ch))); [|cbn; apply pnext_null; eapply peek_null; exact E].
        destruct (_ && _); cbn; apply pnext_null; eapply peek_null; exact E.
      + rewrite E. destruct (_ && _); exact L3.
    - rewrite E. exact L3. }
  unfold settle, looping. cbv zeta. rewrite W10, L2, N.
  destruct (peek envs user (g_step (walk envs user ch))) as [b|]; [|cbn; rewrite W6, W10; auto].
  destruct (b =? EEF_END); [|cbn; rewrite W6, W10; auto]. cbn [negb andb].
  destruct (peek _ _ _); cbn; rewrite W6, W10; auto.
Qed.

Lemma c26 ops more c s0 tr0 ch0 : Forall pop_ok (ops ++ more) ->
  psg_run pal envs (PReset :: ops) psg0 = Done tt s0 tr0 -> zget (ps_chans s0) c = Some ch0 ->
  g_on ch0 = true -> g_rel ch0 = false -> g_loop ch0 <> ENull ->
  (forall op, In op more -> ~ release c op /\ ~ retrigger c op) ->
  exists s tr ch, psg_run pal envs more s0 = Done tt s tr /\ zget (ps_chans s) c = Some ch /\
    g_on ch = true /\ g_rel ch = false /\ g_loop ch <> ENull.
Proof.
  intros Hok E Hc Ho Hrel Hlo Hno. apply Forall_app in Hok. destruct Hok as [Hok1 Hok2].
  destruct (reach_inv pal envs Henvs ops s0 tr0 Hok1 E) as [ue Hi].
  assert (HL : looping ch0). { split; [exact Ho|split; [exact Hrel|]]. destruct (g_loop ch0); [congruence|reflexivity..]. }
  destruct (run_chan c (fun op => ~ release c op /\ ~ retrigger c op) (fun h s ch tr => looping ch)) with (ops := more) (ue := ue)
    (hist := @nil pop) (s := s0) (ch := ch0) (tr := @nil event) as (ue' & s' & ch & o & E' & Hi' & G & L1 & L2 & L3); auto.
  - intros ue0 hist op s ch s' ch' tr o Hs Hop Hr [Q1 Q2] HLc (Hg & _ & -> & _).
    assert (HLc' := HLc). destruct HLc' as (L1 & L2 & L3).
    destruct op; cbn [target release retrigger] in *; try exact HLc; try contradiction.
    + destruct (Z.eqb_spec c0 c); [contradiction|]. exact HLc.
    + destruct (Z.eqb_spec c0 c); [contradiction|]. exact HLc.
    + destruct (Z.eqb_spec c0 c); [contradiction|]. exact HLc.
    + destruct (Z.eqb_spec c0 c); [|exact HLc]. cbn. rewrite L1. destruct (peek _ _ _); exact HLc.
    + destruct (Z.eqb_spec c0 c); exact HLc.
    + cbn. rewrite L1. destruct (proj2 Hs c ch Hg) as [_ K]. eapply settle_looping.
      * apply Hs.
      * eapply advance_ptrs; [apply Hs|split; apply K].
      * destruct (advance_same envs (ps_user s) ch) as (_&_&_&_&_&B6&_&_&_&B10). unfold looping. rewrite B6, B10.
        split; [exact L1|split; [exact L2|]]. unfold advance. destruct (peek _ _ _); [|exact L3]. destruct (_ =? _); exact L3.
    + destruct (Z.eqb_spec c0 c); [|exact HLc]. cbn. destruct (peek _ _ _); exact HLc.
  - intros H. destruct (Hno _ H) as [_ K]. apply K. exact I.
  - apply Forall_forall. exact Hno.
  - exists s', o, ch. split; [exact E'|split; [exact G|split; [exact L1|split; [exact L2|]]]]. intros En. rewrite En in L3. discriminate.
Qed.

(** ** C25 *)
Definition lim (l : bool) (user : list Z) (p : eptr) (n : Z) : Prop :=
  0 <= n /\
  match p with
  | ENull => False
  | EUser i => if l then 255 <= i + n else zget user (i + n) = Some 0xFF
  | ERom k i => match zget envs k with Some e => zget e (i + n) = Some 0xFF | None => False end
  end.

Lemma lim_step l ue user up p b n : ue_ok user up ue -> pok envs ue p -> lim l user p n -> peek envs user p = Some b -> b <> 0xFF ->
  1 <= n /\ lim l user (pnext p) (n - 1).
Proof.
  intros Hue Hp [H0 H] Hb Hne. assert (Hn : n <> 0).
  { intros ->. destruct p as [|i|k i]; cbn in *; [contradiction| |].
    - destruct l; [|rewrite Z.add_0_r in H; congruence].
      destruct Hue as (_ & [->|[Hr HU]] & _); [lia|]. replace i with ue in Hb by lia. congruence.
    - destruct (zget envs k); [|contradiction]. rewrite Z.add_0_r in H. congruence. }
  split; [lia|]. split; [lia|]. destruct p as [|i|k i]; cbn in *; [contradiction| |]; replace (i + 1 + (n - 1)) with (i + n) by lia; exact H.
Qed.

(** A released channel: [n] bounds the remaining frames. *)
Definition ending (l : bool) (user : list Z) (n : Z) (ch : psgchan) : Prop :=
  g_on ch = false \/ (g_rel ch = true /\ lim l user (g_step ch) n).

Lemma ending_tick l ue user up ch n : ue_ok user up ue -> chok envs ue ch -> ending l user n ch -> 
  g_on (fst (cexec pal envs user up CTick ch)) = false \/
  exists m, 0 <= m <= n - 1 /\ ending l user m (fst (cexec pal envs user up CTick ch)).
Proof.
  intros Hue Hch He. cbn [cexec]. destruct (g_on ch) eqn:Eo; [|left; exact Eo].
  destruct He as [?|[Hr Hl]]; [congruence|]. assert (Hp : ptrs_ok envs ue ch) by (split; apply Hch).
  destruct (pok_has envs user up ue Hue _ (proj1 Hp)) as [b Hb].
  assert (Ha := advance_ptrs envs user up ue Hue ch Hp).
  assert (Sa := advance_same envs user ch).
  (* the walk from a released channel within a limit *)
  assert (W : forall d m, ptrs_ok envs ue d -> g_rel d = true -> lim l user (g_step d) m ->
     exists m', 0 <= m' <= m /\ lim l user (g_step (walk envs user d)) m').
  { intros d m Hd Hrd Hld.
    assert (W1 : exists m', 0 <= m' <= m /\ lim l user (g_step (walk1 envs user d)) m').
    { unfold walk1. destruct (pok_has envs user up ue Hue _ (proj1 Hd)) as [x Hx]. rewrite Hx.
      destruct (Z.eqb_spec x EEF_LOOP_START) as [->|]; [|exists m; split; [destruct Hld; lia|exact Hld]].
      destruct (lim_step l ue user up _ _ m Hue (proj1 Hd) Hld Hx) as [H1 H2]; [discriminate|]. exists (m - 1). split; [lia|exact H2]. }
    destruct W1 as (m1 & Hm1 & Hl1). assert (Hd1 := walk1_ptrs envs user up ue Hue d Hd).
    unfold walk. unfold walk2. destruct (pok_has envs user up ue Hue _ (proj1 Hd1)) as [x Hx]. rewrite Hx.
    assert (Hrw : g_rel (walk1 envs user d) = true).
    { destruct (walk1_same envs user d) as (_&_&_&_&_&_&_&_&_&->). exact Hrd. }
    destruct (Z.eqb_spec x EEF_LOOP_END) as [->|]; cbn [andb]; [|exists m1; auto].
    destruct (negb _); [|exists m1; auto]. cbn. rewrite Hrw.
    destruct (lim_step l ue user up _ _ m1 Hue (proj1 Hd1) Hl1 Hx) as [H1 H2]; [discriminate|]. exists (m1 - 1). split; [lia|exact H2]. }
  assert (F : forall d m, ptrs_ok envs ue d -> g_rel d = true -> lim l user (g_step d) m ->
     g_on (fst (settle pal envs user d)) = false \/ exists m', 0 <= m' <= m /\ ending l user m' (fst (settle pal envs user d))).
  { intros d m Hd Hrd Hld. destruct (W d m Hd Hrd Hld) as (m' & Hm' & Hl').
    assert (P := walk_ptrs envs user up ue Hue d Hd). destruct (pok_has envs user up ue Hue _ (proj1 P)) as [x Hx].
    unfold settle. cbv zeta. rewrite Hx. assert (Hrw : g_rel (walk envs user d) = true).
    { destruct (walk_same envs user d) as (_&_&_&_&_&_&_&_&_&->). exact Hrd. }
    rewrite Hrw, andb_false_r. destruct (x =? EEF_END); [left; reflexivity|]. right. exists m'. split; [exact Hm'|].
    right. split; [exact Hrw|exact Hl']. }
  unfold advance in *. rewrite Hb in *. destruct (Z.eqb_spec b EEF_END) as [->|Hne].
  - (* already at the end *)
    left. unfold settle. cbv zeta. unfold walk, walk2, walk1. rewrite Hb. cbn [Z.eqb]. change (EEF_END =? EEF_LOOP_START) with false. cbv iota.
    rewrite Hb. change (EEF_END =? EEF_LOOP_END) with false. cbn [andb]. rewrite Hb. change (EEF_END =? EEF_END) with true. cbv iota.
    rewrite Hr, andb_false_r. reflexivity.
  - destruct (lim_step l ue user up _ _ n Hue (proj1 Hp) Hl Hb Hne) as [H1 H2].
    apply (F (g_set_step ch (pnext (g_step ch))) (n - 1)); [exact Ha|exact Hr|exact H2].
Qed.

Lemma ending_other l user up k ch n : k <> CTick -> (forall p ce v, k <> CNoteOn p ce v) -> ending l user n ch ->
  ending l user n (fst (cexec pal envs user up k ch)).
Proof.
  intros Hk1 Hk2 He. destruct k as [p ce v| |v|p| |p ce]; cbn [cexec].
  - destruct (Hk2 p ce v eq_refl).
  - destruct (g_on ch) eqn:Eo; [|left; exact Eo]. destruct He as [?|[Hr Hl]]; [congruence|].
    destruct (is_null _); [left; reflexivity|]. right. split; [reflexivity|exact Hl].
  - cbv zeta. destruct (g_on ch) eqn:Eo; [|left; exact Eo]. destruct He as [?|He]; [congruence|]. destruct (peek _ _ _); right; exact He.
  - exact He.
  - contradiction.
  - cbv zeta. destruct (peek _ _ _); exact He.
Qed.

(** Loads do not disturb the load-tolerant limit. *)
Definition ending_j (l : bool) (c n : Z) (h : list pop) (s : psg) (ch : psgchan) (tr : list event) : Prop :=
  g_on ch = false \/ exists m, 0 <= m /\ m + ticks h <= n /\ ending l (ps_user s) m ch.

Lemma ticks_snoc op : forall h, ticks (h ++ [op]) = ticks h + ticks [op].
Proof. induction h as [|x t IH]; [reflexivity|]. destruct x; cbn [app ticks] in *; lia. Qed.
Lemma off_stays user up k ch : (forall p ce v, k <> CNoteOn p ce v) -> g_on ch = false -> g_on (fst (cexec pal envs user up k ch)) = false.
Proof.
  intros Hk Ho. destruct k as [p ce v| |v|p| |p ce]; cbn [cexec]; cbv zeta; rewrite ?Ho; try assumption.
  - destruct (Hk p ce v eq_refl). - destruct (peek _ _ _); exact Ho.
Qed.

Lemma target_note c op p ce v : target c op = Some (CNoteOn p ce v) -> retrigger c op.
Proof.
  destruct op; cbn; try discriminate; try (destruct (_ =? _); discriminate).
  destruct (Z.eqb_spec c0 c) as [->|]; [reflexivity|discriminate].
Qed.
Lemma target_tick c op : target c op = Some CTick -> op = PTick.
Proof. destruct op; cbn; try discriminate; try (destruct (_ =? _); discriminate); [destruct (_ && _); discriminate|reflexivity]. Qed.

Lemma ending_step l c n ue h op s ch s' ch' tr o : psg_inv envs ue s -> pop_ok op -> ~ retrigger c op -> (l = true \/ ~ is_load op) ->
  ending_j l c n h s ch tr -> cstep c op s ch s' ch' o -> ending_j l c n (h ++ [op]) s' ch' (tr ++ o).
Proof.
  intros Hs Hop Hr Hl HJ (Hg & _ & -> & _ & HU). unfold ending_j in *. rewrite ticks_snoc.
  assert (HT : 0 <= ticks [op] <= 1) by (destruct op; cbn; lia).
  assert (UE : forall m d, ending l (ps_user s) m d -> ending l (ps_user s') m d).
  { intros m d [H|[H1 H2]]; [left; exact H|right]. split; [exact H1|]. destruct HU as [HU|[-> _]]; [|exact H2].
    destruct Hl as [->|]; [|contradiction]. exact H2. }
  destruct (target c op) as [k|] eqn:Et.
  - cbn [exec1]. assert (NN : forall p ce v, k <> CNoteOn p ce v).
    { intros p ce v ->. apply Hr. eapply target_note; exact Et. }
    destruct HJ as [Ho|(m & Hm & Hmn & He)]; [left; apply off_stays; assumption|].
    destruct (proj2 Hs c ch Hg) as [_ K].
    destruct (match k with CTick => true | _ => false end) eqn:Ek.
    + destruct k; try discriminate. destruct (ending_tick l ue _ (ps_userp s) ch m (proj2 (proj1 Hs)) K He) as [Ho|(m' & Hm' & He')]; [left; exact Ho|].
      right. exists m'. split; [lia|split; [lia|]]. apply UE, He'.
    + right. exists m. split; [exact Hm|]. assert (HT0 : ticks [op] = 0) by (destruct op; try reflexivity; cbn in Et; injection Et as <-; discriminate).
      split; [lia|]. apply UE. apply ending_other; auto. destruct k; congruence.
  - cbn [exec1 fst]. destruct HJ as [Ho|(m & Hm & Hmn & He)]; [left; exact Ho|]. right. exists m.
    assert (HT0 : ticks [op] = 0) by (destruct op; try reflexivity; discriminate). split; [exact Hm|split; [lia|apply UE, He]].
Qed.

Lemma release_ends c op s ch s' ch' o ue l n : psg_inv envs ue s -> release c op -> cstep c op s ch s' ch' o ->
  (g_loop ch <> ENull -> lim l (ps_user s) (g_step ch) n) ->
  (g_loop ch = ENull -> g_on ch' = false) /\ (g_on ch' = false \/ (0 <= n /\ ending l (ps_user s') n ch')).
Proof.
  intros Hs Hrel (Hg & _ & -> & _ & HU) Hlim.
  assert (HU' : ps_user s' = ps_user s) by (destruct HU as [H|[H _]]; [destruct op; cbn in *; contradiction|exact H]).
  assert (Et : target c op = Some COff).
  { destruct op; cbn in Hrel; try contradiction; subst; cbn; rewrite Z.eqb_refl; reflexivity. }
  rewrite Et. cbn [exec1 cexec]. rewrite HU'. destruct (g_on ch) eqn:Eo; [|split; auto].
  destruct (g_loop ch) eqn:El; cbn [is_null fst].
  - split; auto.
  - split; [discriminate|]. right. assert (L : lim l (ps_user s) (g_step ch) n) by (apply Hlim; discriminate).
    split; [apply L|]. right. split; [reflexivity|exact L].
  - split; [discriminate|]. right. assert (L : lim l (ps_user s) (g_step ch) n) by (apply Hlim; discriminate).
    split; [apply L|]. right. split; [reflexivity|exact L].
Qed.

Lemma mirror_of ops c s tr ch : Forall pop_ok ops -> ~ In PReset ops -> zget (ps_chans s) c = Some ch ->
  psg_run pal envs (PReset :: ops) psg0 = Done tt s tr -> g_on ch = false -> chip_att att_at_boot tr c = 15.
Proof.
  intros Hok Hr Hg E Ho. destruct (reach_inv pal envs Henvs ops s tr Hok E) as [ue Hi].
  assert (Hc : is_psg c). { apply zget_Some in Hg. rewrite (proj1 (proj1 Hi)) in Hg. unfold is_psg. lia. }
  destruct (c27 ops c s tr Hok Hr Hc E) as (ch' & Hg' & _ & _ & _ & _ & H). rewrite Hg in Hg'. injection Hg' as <-. auto.
Qed.

Lemma c25_gen l ops rel more c s0 tr0 ch0 n s tr : Forall pop_ok (ops ++ rel :: more) -> ~ In PReset (ops ++ rel :: more) ->
  psg_run pal envs (PReset :: ops) psg0 = Done tt s0 tr0 -> zget (ps_chans s0) c = Some ch0 ->
  release c rel -> (forall op, In op more -> ~ retrigger c op) -> (l = true \/ Forall (fun op => ~ is_load op) more) ->
  (g_loop ch0 = ENull \/ (lim l (ps_user s0) (g_step ch0) n /\ n < ticks more)) ->
  psg_run pal envs (PReset :: ops ++ rel :: more) psg0 = Done tt s tr ->
  chip_att att_at_boot tr c = 15.
Proof.
  intros Hok Hnr E0 Hg0 Hrel Hno Hl Hlim E. assert (Hok' := Hok). assert (E' := E).
  apply Forall_app in Hok. destruct Hok as [Hok1 Hok2]. inversion Hok2 as [|? ? Hokr Hokm]; subst.
  change (PReset :: ops ++ rel :: more) with ((PReset :: ops) ++ rel :: more) in E. apply run_split in E.
  destruct E as (s1 & t1 & t2 & E1 & E2 & ->). rewrite E0 in E1. injection E1 as <- <-.
  destruct (reach_inv pal envs Henvs ops s0 tr0 Hok1 E0) as [ue Hi].
  assert (Hrr : rel <> PReset) by (intros ->; contradiction).
  destruct (step_chan ue rel s0 c ch0 Hi Hokr Hrr Hg0) as (ue1 & s1 & ch1 & o1 & Es & Hi1 & C1).
  unfold psg_run in E2. cbn [runM] in E2. unfold bind in E2. rewrite Es in E2.
  destruct (runM (psg_step pal envs) more s1) as [u s' o2|f] eqn:Em; [|discriminate]. injection E2 as _ -> <-.
  assert (HJ0 : g_on ch1 = false \/ exists m, 0 <= m /\ ending l (ps_user s1) m ch1 /\ m < ticks more).
  { destruct Hlim as [Hnull|[HL Ht]].
    - left. eapply (release_ends c rel s0 ch0 s1 ch1 o1 ue l 0); eauto. intros; contradiction.
    - destruct (release_ends c rel s0 ch0 s1 ch1 o1 ue l n Hi Hrel C1 (fun _ => HL)) as [_ [H|[H1 H2]]]; [left; exact H|right; exists n; auto]. }
  assert (HJ1 : exists n', n' < ticks more /\ ending_j l c n' [] s1 ch1 [] \/ g_on ch1 = false).
  { destruct HJ0 as [H|(m & H1 & H2 & H3)]; [exists 0; right; exact H|]. exists m. left. split; [exact H3|]. right. exists m. cbn. auto with zarith. }
  assert (Hnrm : ~ In PReset more). { intros H. apply Hnr. apply in_or_app. right. right. exact H. }
  assert (Fin : exists chf, zget (ps_chans s) c = Some chf /\ g_on chf = false).
  { assert (G : forall n', n' < ticks more -> ending_j l c n' [] s1 ch1 [] -> exists chf, zget (ps_chans s) c = Some chf /\ g_on chf = false).
    { intros n' Hn' HJ. destruct (run_chan c (fun op => ~ retrigger c op /\ (l = true \/ ~ is_load op)) (ending_j l c n')) with (ops := more) (ue := ue1) (hist := @nil pop)
        (s := s1) (ch := ch1) (tr := @nil event) as (ue' & s2 & chf & o & E2 & Hi2 & Hgf & HJf); auto.
      - intros ue0 hist op s2 ch s3 ch' tr o Hs2 Hop2 _ [Q1 Q2] HJ2 C2. eapply ending_step; eauto.
      - apply Forall_forall. intros op Hin. split; [apply Hno, Hin|]. destruct Hl as [->|Hl]; [left; reflexivity|right].
        rewrite Forall_forall in Hl. apply Hl, Hin.
      - exact (proj1 (proj1 (proj2 C1))).
      - unfold psg_run in E2. rewrite Em in E2. injection E2 as _ <- <-. exists chf. split; [exact Hgf|].
        destruct HJf as [H|(m & H1 & H2 & H3)]; [exact H|]. cbn [app] in H2. lia. }
    destruct HJ1 as (n' & [[Hn' HJ]|Ho]); [eapply G; eassumption|].
    destruct (run_chan c (fun op => ~ retrigger c op) (fun h s ch tr => g_on ch = false)) with (ops := more) (ue := ue1) (hist := @nil pop)
        (s := s1) (ch := ch1) (tr := @nil event) as (ue' & s2 & chf & o & E2 & Hi2 & Hgf & HJf); auto.
    - intros ue0 hist op s2 ch s3 ch' tr o Hs2 Hop2 _ Q HJ2 (_ & _ & -> & _).
      destruct (target c op) as [k|] eqn:Et; [|exact HJ2]. cbn [exec1]. apply off_stays; [|exact HJ2].
      intros p ce v ->. apply Q. eapply target_note; exact Et.
    - apply Forall_forall. exact Hno.
    - exact (proj1 (proj1 (proj2 C1))).
    - unfold psg_run in E2. rewrite Em in E2. injection E2 as _ <- <-. exists chf. auto. }
  destruct Fin as (chf & Hgf & Hof). eapply mirror_of; [exact Hok'|exact Hnr|exact Hgf|exact E'|exact Hof].
Qed.

Lemma c25 ops rel more c s0 tr0 ch0 n s tr : Forall pop_ok (ops ++ rel :: more) -> ~ In PReset (ops ++ rel :: more) ->
  psg_run pal envs (PReset :: ops) psg0 = Done tt s0 tr0 -> zget (ps_chans s0) c = Some ch0 ->
  release c rel -> (forall op, In op more -> ~ retrigger c op /\ ~ is_load op) ->
  (g_loop ch0 = ENull \/ (to_end envs (ps_user s0) (g_step ch0) n /\ n < ticks more)) ->
  psg_run pal envs (PReset :: ops ++ rel :: more) psg0 = Done tt s tr ->
  chip_att att_at_boot tr c = 15.
Proof.
  intros Hok Hnr E0 Hg0 Hrel Hno Hlim E. eapply (c25_gen false) with (n := n); try eassumption.
  - intros op H. apply (Hno op H).
  - right. apply Forall_forall. intros op H. apply (Hno op H).
Qed.

Lemma c25_loads ops rel more c s0 tr0 ch0 n s tr : Forall pop_ok (ops ++ rel :: more) -> ~ In PReset (ops ++ rel :: more) ->
  psg_run pal envs (PReset :: ops) psg0 = Done tt s0 tr0 -> zget (ps_chans s0) c = Some ch0 ->
  release c rel -> (forall op, In op more -> ~ retrigger c op) ->
  (g_loop ch0 = ENull \/ (remaining envs (g_step ch0) n /\ n < ticks more)) ->
  psg_run pal envs (PReset :: ops ++ rel :: more) psg0 = Done tt s tr ->
  chip_att att_at_boot tr c = 15.
Proof.
  intros Hok Hnr E0 Hg0 Hrel Hno Hlim E. eapply (c25_gen true) with (n := n); try eassumption; [left; reflexivity|].
  destruct Hlim as [H|[H1 H2]]; [left; exact H|right]. split; [|exact H2].
  assert (Hok1 : Forall pop_ok ops) by (apply Forall_app in Hok; apply Hok).
  destruct (reach_inv pal envs Henvs ops s0 tr0 Hok1 E0) as [ue Hi].
  destruct (proj2 Hi c ch0 Hg0) as [_ (_ & _ & K & _)]. destruct Hi as [[_ (_ & HU & _)] _].
  unfold lim. destruct (g_step ch0) as [|i|k i]; cbn in H1, K; [contradiction| |].
  - subst. split; [|cbn; lia]. destruct HU as [->|[? _]]; lia.
  - exact H1.
Qed.
End Claims.
