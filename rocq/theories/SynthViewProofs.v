(** One FM channel of synth.c, seen from the calls made so far: is its key down,
    its volume, stereo side, loaded preset and programmed frequency. *)
From Verif Require Import Base BaseLemmas SynthModel SynthSpec SynthProofs SynthMirrorProofs SynthClaimsProofs SynthNotifyProofs.

Record sview := mkSv {
  v_key : option bool; v_vol : Z; v_side : Z; v_pre : preset; v_frq : option (Z * Z);
  v_edited : bool;   (** a parameter was changed since the last preset was loaded *)
  v_raw : bool       (** registers were written directly *) }.

Definition param_of (op : sop) : option Z :=
  match op with
  | SAlgorithm c _ | SFeedback c _ | SAms c _ | SFms c _ | STotalLevel c _ _ | SMultiple c _ _ | SDetune c _ _
  | SRateScaling c _ _ | SAttackRate c _ _ | SDecayRate c _ _ | SSustainRate c _ _
  | SSustainLevel c _ _ | SAmpMod c _ _ | SReleaseRate c _ _ | SSsgEg c _ _ => Some c
  | _ => None
  end.

Definition sv_step (n : Z) (v : sview) (op : sop) : sview :=
  match op with
  | SInit p => mkSv (Some false) 127 3 p (v_frq v) false (v_raw v)
  | SNoteOn c => if c =? n then mkSv (Some true) (v_vol v) (v_side v) (v_pre v) (v_frq v) (v_edited v) (v_raw v) else v
  | SNoteOff c => if c =? n then mkSv (Some false) (v_vol v) (v_side v) (v_pre v) (v_frq v) (v_edited v) (v_raw v) else v
  | SPitch c o f => if c =? n then mkSv (v_key v) (v_vol v) (v_side v) (v_pre v) (Some (o mod 8, f mod 2048)) (v_edited v) (v_raw v) else v
  | SVolume c x => if c =? n then mkSv (v_key v) x (v_side v) (v_pre v) (v_frq v) (v_edited v) (v_raw v) else v
  | SStereo c x => if c =? n then mkSv (v_key v) (v_vol v) (x mod 4) (v_pre v) (v_frq v) (v_edited v) (v_raw v) else v
  | SPreset c p => if c =? n then mkSv (v_key v) (v_vol v) (v_side v) p (v_frq v) false (v_raw v) else v
  | SDirect _ _ _ => mkSv (v_key v) (v_vol v) (v_side v) (v_pre v) (v_frq v) (v_edited v) true
  | _ => match param_of op with
         | Some c => if c =? n then mkSv (v_key v) (v_vol v) (v_side v) (v_pre v) (v_frq v) true (v_raw v) else v
         | None => v
         end
  end.

Definition chan_preset (c : fmchan) : preset := mkPreset (c_alg c) (c_fb c) (c_ams c) (c_fms c) (c_ops c).
Definition sv_holds (n : Z) (v : sview) (s : synth) (tr : list event) : Prop :=
  vol s n = v_vol v /\ c_st (chn s n) = v_side v /\
  (v_edited v = false -> chan_preset (chn s n) = v_pre v) /\
  (v_raw v = false -> key_state tr n = v_key v /\ chip_freq tr n = v_frq v).

Lemma post_init s p n : synth_ok s -> preset_ok p -> is_ch n ->
  vol (post (SInit p) s) n = 127 /\ chn (post (SInit p) s) n = preset_to_channel p 3.
Proof.
  intros Hs Hp Hn. cbn [post fold_left].
  assert (L : length (s_chans s) = 6%nat /\ length (s_vols s) = 6%nat) by (split; apply Hs). destruct L as [L1 L2].
  destruct s as [a b c d chs vs e f]. cbn in L1, L2.
  do 6 (destruct chs as [|? chs]; [discriminate|]). destruct chs; [|discriminate].
  do 6 (destruct vs as [|? vs]; [discriminate|]). destruct vs; [|discriminate].
  destruct (ch_cases n Hn) as [-> | [-> | [-> | [-> | [-> | ->]]]]]; split; reflexivity.
Qed.
Lemma loaded_preset p st : preset_ok p -> chan_preset (preset_to_channel p st) = p.
Proof.
  intros (A & B & C & D & _). destruct p as [a b c d l]. cbn in *. unfold chan_preset, preset_to_channel, bits; cbn.
  rewrite !Z.mod_small by lia. reflexivity.
Qed.

Lemma keys_kept op s tr o n : sop_ok op -> ~ keying op -> ymw o = writes op s -> synth_ok s -> key_state (tr ++ o) n = key_state tr n.
Proof. intros Ho Hk W Hs. rewrite key_state_app, W. apply kw_free. apply nonkey_writes; assumption. Qed.
Lemma freq_kept op s tr o n : sop_ok op -> (forall p g d, op <> SDirect p g d) -> (forall c x f, op <> SPitch c x f) ->
  ymw o = writes op s -> chip_freq (tr ++ o) n = chip_freq tr n.
Proof.
  intros Ho Hd Hp W. unfold chip_freq. rewrite yf_run_app, W, yw_free; [reflexivity|]. apply free_writes; [assumption| |assumption].
  destruct op; try exact I. exfalso. eapply Hd; reflexivity.
Qed.

Lemma done_out {S A} (a b : A) (s t : S) o p : Done a s o = Done b t p -> o = p.
Proof. congruence. Qed.

Ltac param :=
  unfold sv_holds; cbn [post];
  match goal with Hs : synth_ok ?s, Hc : is_ch ?c, Hn : is_ch ?n |- _ =>
    rewrite (chn_set_ch s Hs) by assumption; rewrite (Z.eqb_sym n c); destruct (Z.eqb_spec c n) as [<-|N]; cbn; auto end;
  match goal with H1 : _ = _, H2 : c_st _ = _ |- _ => split; [exact H1|split; [exact H2|split; [discriminate|assumption]]] end.

Theorem sv_step_ok n op s o v tr : synth_ok s -> sop_ok op -> is_ch n -> synth_step op s = Done tt (post op s) o -> ymw o = writes op s ->
  sv_holds n v s tr -> sv_holds n (sv_step n v op) (post op s) (tr ++ o).
Proof.
  intros Hs Ho Hn E W (H1 & H2 & H3 & H4).
  assert (CK : forall op', op' = op -> ~ keying op -> (forall c x f, op <> SPitch c x f) -> v_raw v = false ->
            key_state (tr ++ o) n = v_key v /\ chip_freq (tr ++ o) n = v_frq v).
  { intros op' -> K P R. destruct (H4 R) as [K1 K2]. split.
    - rewrite (keys_kept op s) by assumption. exact K1.
    - rewrite (freq_kept op s) by (auto; intros p g d ->; apply K; exact I). exact K2. }
  destruct op as [p|c|c|c oc f|c x|c x|c x|c x|c x|c x|c oo x|c oo x|c oo x|c oo x|c oo x|c oo x|c oo x|c oo x|c oo x|c oo x|c oo x|x|x|c p|b|b|oo oc f|oo x|pp g d|b];
    cbn [sv_step param_of].
  - (* SInit *)
    destruct (post_init s p n Hs Ho Hn) as [A B]. split; [exact A|]. split; [rewrite B; reflexivity|]. split.
    + intros _. rewrite B. apply loaded_preset, Ho.
    + cbn. intros R. destruct (H4 R) as [_ K2]. split.
      * destruct (c12_init_silent s tr p Hs Ho) as (s1 & o1 & E1 & K). change (synth_step (SInit p) s = Done tt s1 o1) in E1.
        rewrite E in E1. injection E1 as _ <-. apply K, Hn.
      * rewrite (freq_kept (SInit p) s); auto; discriminate.
  - (* SNoteOn *)
    assert (F : v_raw v = false -> chip_freq (tr ++ o) n = v_frq v).
    { intros R. rewrite (freq_kept (SNoteOn c) s); auto; [apply H4, R|discriminate|discriminate]. }
    destruct (c12_key_on_off true s tr c Hs Ho) as (o1 & E1 & K1 & K2). change (synth_step (SNoteOn c) s = Done tt s o1) in E1.
    rewrite E in E1. apply done_out in E1. subst o1. cbn [post].
    destruct (Z.eqb_spec c n) as [<-|N]; (split; [exact H1|split; [exact H2|split; [exact H3|]]]); cbn; intros R; split; auto.
    rewrite K2 by auto. apply H4, R.
  - (* SNoteOff *)
    assert (F : v_raw v = false -> chip_freq (tr ++ o) n = v_frq v).
    { intros R. rewrite (freq_kept (SNoteOff c) s); auto; [apply H4, R|discriminate|discriminate]. }
    destruct (c12_key_on_off false s tr c Hs Ho) as (o1 & E1 & K1 & K2). change (synth_step (SNoteOff c) s = Done tt s o1) in E1.
    rewrite E in E1. apply done_out in E1. subst o1. cbn [post].
    destruct (Z.eqb_spec c n) as [<-|N]; (split; [exact H1|split; [exact H2|split; [exact H3|]]]); cbn; intros R; split; auto.
    rewrite K2 by auto. apply H4, R.
  - (* SPitch *)
    assert (Ho' := Ho). destruct Ho as (Hc & Ho1 & Ho2).
    assert (K : v_raw v = false -> key_state (tr ++ o) n = v_key v).
    { intros R. rewrite (keys_kept (SPitch c oc f) s); auto. apply H4, R. }
    destruct (c12_pitch s tr c oc f Hs Hc Ho1 Ho2) as (s1 & o1 & E1 & K1 & K2). change (synth_step (SPitch c oc f) s = Done tt s1 o1) in E1.
    rewrite E in E1. apply done_out in E1. subst o1. unfold sv_holds. cbn [post]. rewrite chn_set_ch by assumption.
    destruct (Z.eqb_spec c n) as [<-|N].
    + rewrite Z.eqb_refl. cbn. split; [exact H1|]. split; [exact H2|]. split; [exact H3|]. intros R. split; auto.
    + destruct (Z.eqb_spec n c); [congruence|]. split; [exact H1|]. split; [exact H2|]. split; [exact H3|]. intros R. split; [auto|].
      rewrite K2 by auto. apply H4, R.
  - (* SVolume *)
    destruct Ho as (Hc & _). specialize (CK _ eq_refl (fun x => x) ltac:(discriminate)).
    unfold sv_holds. cbn [post]. destruct (Z.eqb_spec (vol s c) x) as [Ex|Ex].
    + destruct (Z.eqb_spec c n) as [<-|N]; (split; [cbn; congruence|]); auto.
    + rewrite vol_set_vol by assumption. change (chn (set_vol s c x) n) with (chn s n).
      rewrite (Z.eqb_sym n c). destruct (Z.eqb_spec c n) as [<-|N]; cbn; auto.
  - (* SStereo *)
    destruct Ho as (Hc & _). specialize (CK _ eq_refl (fun x => x) ltac:(discriminate)).
    unfold sv_holds. cbn [post]. rewrite chn_set_ch by assumption. rewrite (Z.eqb_sym n c). destruct (Z.eqb_spec c n) as [<-|N]; cbn; auto.
  - destruct Ho as (Hc & _). specialize (CK _ eq_refl (fun x => x) ltac:(discriminate)). param.
  - destruct Ho as (Hc & _). specialize (CK _ eq_refl (fun x => x) ltac:(discriminate)). param.
  - destruct Ho as (Hc & _). specialize (CK _ eq_refl (fun x => x) ltac:(discriminate)). param.
  - destruct Ho as (Hc & _). specialize (CK _ eq_refl (fun x => x) ltac:(discriminate)). param.
  - destruct Ho as (Hc & _). specialize (CK _ eq_refl (fun x => x) ltac:(discriminate)).
    cbn [post]. destruct (Z.eqb_spec (o_tl (opr s c oo)) x).
    + unfold sv_holds. destruct (Z.eqb_spec c n) as [<-|N]; cbn; auto. split; [assumption|]. split; [assumption|]. split; [discriminate|assumption].
    + param.
  - destruct Ho as (Hc & _). specialize (CK _ eq_refl (fun x => x) ltac:(discriminate)). param.
  - destruct Ho as (Hc & _). specialize (CK _ eq_refl (fun x => x) ltac:(discriminate)). param.
  - destruct Ho as (Hc & _). specialize (CK _ eq_refl (fun x => x) ltac:(discriminate)). param.
  - destruct Ho as (Hc & _). specialize (CK _ eq_refl (fun x => x) ltac:(discriminate)). param.
  - destruct Ho as (Hc & _). specialize (CK _ eq_refl (fun x => x) ltac:(discriminate)). param.
  - destruct Ho as (Hc & _). specialize (CK _ eq_refl (fun x => x) ltac:(discriminate)). param.
  - destruct Ho as (Hc & _). specialize (CK _ eq_refl (fun x => x) ltac:(discriminate)). param.
  - destruct Ho as (Hc & _). specialize (CK _ eq_refl (fun x => x) ltac:(discriminate)). param.
  - destruct Ho as (Hc & _). specialize (CK _ eq_refl (fun x => x) ltac:(discriminate)). param.
  - destruct Ho as (Hc & _). specialize (CK _ eq_refl (fun x => x) ltac:(discriminate)). param.
  - specialize (CK _ eq_refl (fun x => x) ltac:(discriminate)). unfold sv_holds. auto.
  - specialize (CK _ eq_refl (fun x => x) ltac:(discriminate)). unfold sv_holds. auto.
  - (* SPreset *)
    destruct Ho as (Hc & Hp). specialize (CK _ eq_refl (fun x => x) ltac:(discriminate)).
    unfold sv_holds. cbn [post]. rewrite chn_set_ch by assumption. rewrite (Z.eqb_sym n c). destruct (Z.eqb_spec c n) as [<-|N]; cbn [v_vol v_side v_pre v_key v_frq v_raw v_edited]; auto.
    split; [exact H1|]. split; [|split; [intros _; apply loaded_preset, Hp|exact CK]].
    cbn. unfold bits. rewrite <- H2. apply Z.mod_small. destruct (chn_ok s Hs c Hc) as (_ & _ & B & _). exact B.
  - specialize (CK _ eq_refl (fun x => x) ltac:(discriminate)). unfold sv_holds. auto.
  - specialize (CK _ eq_refl (fun x => x) ltac:(discriminate)). unfold sv_holds. auto.
  - specialize (CK _ eq_refl (fun x => x) ltac:(discriminate)). unfold sv_holds. auto.
  - specialize (CK _ eq_refl (fun x => x) ltac:(discriminate)). unfold sv_holds. auto.
  - unfold sv_holds. cbn. split; [exact H1|]. split; [exact H2|]. split; [exact H3|discriminate].
  - specialize (CK _ eq_refl (fun x => x) ltac:(discriminate)). unfold sv_holds. auto.
Qed.

Lemma sv_run n ops : forall s s' o v tr, synth_ok s -> Forall sop_ok ops -> is_ch n -> synth_run ops s = Done tt s' o ->
  sv_holds n v s tr -> sv_holds n (fold_left (sv_step n) ops v) s' (tr ++ o).
Proof.
  induction ops as [|op t IH]; intros s s' o v tr Hs Ho Hn E H.
  - injection E as <- <-. rewrite app_nil_r. exact H.
  - apply Forall_cons_iff in Ho as [Ho1 Ho2]. destruct (step_runs op s Hs Ho1) as (o1 & E1 & W1 & _).
    unfold synth_run in E. cbn [runM] in E. unfold bind in E. rewrite E1 in E.
    destruct (runM synth_step t (post op s)) as [a s2 o2|f] eqn:E2; [|discriminate]. injection E as _ <- <-. destruct a.
    rewrite app_assoc. cbn [fold_left]. apply (IH (post op s) s2 o2 _ (tr ++ o1)); [apply post_ok; assumption|assumption|assumption|exact E2|].
    eapply sv_step_ok; eassumption.
Qed.
