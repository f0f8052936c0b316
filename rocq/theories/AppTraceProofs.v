(** Induction over everything that happened since power-on, and how the chips'
    views of a trace relate to the events of their own. *)
From Verif Require Import Base BaseLemmas SynthModel SynthSpec SynthProofs SynthMirrorProofs SramModel PsgModel MidiModel.
From Verif Require Import DevModel DevSpec DevProofs AppModel AppSpec AppProofs.
From Verif Require PsgSpec PsgRunProofs SramSpec MidiSpec MidiProofs MidiOkProofs MidiEffectProofs MidiCallProofs RxModel.

(** ** Chip views *)
Lemma fold_filter {S} (f : S -> event -> S) (keep : event -> bool) : (forall x e, keep e = false -> f x e = x) ->
  forall l a, fold_left f l a = fold_left f (filter keep l) a.
Proof.
  intros H. induction l as [|e t IH]; intros a; [reflexivity|]. cbn [fold_left filter].
  destruct (keep e) eqn:K; cbn [fold_left]; [apply IH|]. rewrite (H a e K). apply IH.
Qed.
Lemma regs_fm tr : ym_regs tr = ym_regs (filter fm_event tr).
Proof. apply fold_filter. intros x [] K; try reflexivity; discriminate. Qed.
Lemma freq_fm tr c : chip_freq tr c = chip_freq (filter fm_event tr) c.
Proof.
  unfold chip_freq, yf_run. rewrite (fold_filter yf_step fm_event); [reflexivity|].
  intros x [] K; try reflexivity; discriminate.
Qed.
Lemma keys_fm tr c : key_state tr c = key_state (filter fm_event tr) c.
Proof. apply fold_filter. intros x [] K; try reflexivity; discriminate. Qed.
Lemma bus_fm tr : bus_after tr = bus_after (filter fm_event tr).
Proof. apply fold_filter. intros x [] K; try reflexivity; discriminate. Qed.
Lemma latched_fm tr : latched tr = latched (filter fm_event tr).
Proof. apply fold_filter. intros x [] K; try reflexivity; discriminate. Qed.
Lemma bus_safe_fm tr : bus_safe (filter fm_event tr) -> bus_safe tr.
Proof.
  intros H t1 e t2 -> A. rewrite bus_fm. apply (H _ e (filter fm_event t2)); [|exact A].
  rewrite filter_app. cbn [filter]. destruct e; try contradiction; reflexivity.
Qed.
Lemma att_psg v tr c : PsgSpec.chip_att v tr c = PsgSpec.chip_att v (filter psg_event tr) c.
Proof.
  unfold PsgSpec.chip_att. apply fold_filter. intros x [] K; try reflexivity; discriminate.
Qed.
Lemma tone_psg v tr c : PsgSpec.chip_tone v tr c = PsgSpec.chip_tone v (filter psg_event tr) c.
Proof.
  unfold PsgSpec.chip_tone. apply fold_filter. intros x [] K; try reflexivity; discriminate.
Qed.

(** ** Where calls come from *)
Lemma run_menu ops : forall s s' o, midi_run ops s = WDone s' o -> forall c, In c o -> exists op, In op ops /\ MidiCallProofs.menu op c.
Proof.
  induction ops as [|op t IH]; intros s s' o E c Hc; cbn [midi_run] in E.
  - apply MidiEffectProofs.WDone_inj in E as [_ <-]. destruct Hc.
  - apply MidiEffectProofs.wbind_inv in E as (s1 & o1 & o2 & E1 & E2 & ->). apply in_app_or in Hc as [Hc|Hc].
    + exists op. split; [left; reflexivity|]. assert (F := MidiCallProofs.calls_menu op s _ _ E1). rewrite Forall_forall in F. exact (F _ Hc).
    + destruct (IH _ _ _ E2 c Hc) as (x & Hx & M). exists x. split; [right; exact Hx|exact M].
Qed.
Definition boot_rest : list dcall := skipn 4 MidiEffectProofs.boot_calls.
Lemma boot_first : MidiEffectProofs.boot_calls = first_calls ++ boot_rest.
Proof. reflexivity. Qed.
(** The rest of power-on initialises device channels. *)
Lemma boot_rest_voice c : In c boot_rest -> MidiCallProofs.voice_call c \/ c = DSmReset.
Proof.
  assert (F : Forall (fun c => MidiCallProofs.voice_call c \/ c = DSmReset) boot_rest).
  { unfold boot_rest, MidiEffectProofs.boot_calls. cbn [skipn]. repeat (apply Forall_cons; [first [right; reflexivity|left; exact I]|]). apply Forall_nil. }
  rewrite Forall_forall in F. apply F.
Qed.
Lemma boots_menu ops s cs : MidiSpec.boots_to ops s cs -> forall c, In c (skipn 4 cs) ->
  (MidiCallProofs.voice_call c \/ c = DSmReset) \/ exists op, In op ops /\ MidiCallProofs.menu op c.
Proof.
  intros B c Hc. destruct (MidiEffectProofs.boots_run _ _ _ B) as (_ & o & E & ->).
  rewrite boot_first in Hc. cbn [first_calls Datatypes.app skipn] in Hc. apply in_app_or in Hc as [Hc|Hc].
  - left. exact (boot_rest_voice _ Hc).
  - right. exact (run_menu _ _ _ _ E c Hc).
Qed.
Lemma boots_calls_ok ops s cs : MidiSpec.boots_to ops s cs -> Forall MidiSpec.dcall_ok cs.
Proof.
  intros B. destruct (MidiEffectProofs.boots_run _ _ _ B) as (Ho & o & E & ->). apply Forall_app. split; [exact boot_calls_ok|].
  clear B. revert Ho E. generalize MidiEffectProofs.booted_ok. generalize MidiEffectProofs.booted. revert o s.
  induction ops as [|op t IH]; intros o s s0 Hs Ho E; cbn [midi_run] in E.
  - apply MidiEffectProofs.WDone_inj in E as [_ <-]. constructor.
  - apply MidiEffectProofs.wbind_inv in E as (s1 & o1 & o2 & E1 & E2 & ->).
    destruct (MidiEffectProofs.step_ok _ _ _ _ Hs (Forall_inv Ho) E1) as [Hs1 F1]. apply Forall_app. split; [exact F1|].
    exact (IH _ _ _ Hs1 (Forall_inv_tail Ho) E2).
Qed.

(** ** Induction over what was played: the calls after the first four *)
Section Played.
Context (r : rom) (Hr : rom_ok r) (mem : list Z) (Hm : mem_ok mem).

Lemma first_calls_more s o : perform_all r false first_calls (devst0 mem) = Done tt s o ->
  filter other_event o = [] /\ sr_mem (v_sram s) = mem /\
  (forall n, 0 <= n < 6 -> zget (v_fm s) n = Some (mkMf 0 0 127 127 0 false)) /\
  (forall n, 0 <= n < 128 -> zget (v_user s) n = Some None).
Proof.
  intros E. assert (He : PsgSpec.envs_ok (rom_envs r)) by apply Hr.
  assert (H0 := devst0_inv mem Hm).
  set (s1 := v_set_psg (devst0 mem) PsgRunProofs.boot_state).
  assert (I1 : dev_inv s1) by exact H0.
  assert (G1 : psg_good r (v_psg s1)) by (exists (-1); exact (PsgRunProofs.boot_inv _ He)).
  assert (E1 : perform r false DPsgInit (devst0 mem) = Done tt s1 []).
  { cbn [perform]. unfold ps, lift. cbn [psg_step devst0 v_psg]. rewrite PsgRunProofs.reset_exec by (exact He || reflexivity). reflexivity. }
  destruct (perform_does r Hr false DFmInit s1 I1 G1 I (fun _ => eq_refl)) as (s2 & o2 & (E2 & S2 & P2) & F2 & I2 & G2); [intros (? & ? & ? & ? & [=] & _)|].
  destruct (perform_does r Hr false DPsgReset s2 I2 G2 I ltac:(discriminate)) as (s3 & o3 & (E3 & S3 & P3) & F3 & I3 & G3); [intros (? & ? & ? & ? & [=] & _)|].
  destruct (perform_does r Hr false DFmReset s3 I3 G3 I ltac:(discriminate)) as (s4 & o4 & (E4 & S4 & P4) & F4 & I4 & G4); [intros (? & ? & ? & ? & [=] & _)|].
  assert (X : perform_all r false first_calls (devst0 mem) = Done tt s4 ([] ++ o2 ++ o3 ++ o4 ++ [])).
  { unfold first_calls, perform_all. cbn [runM]. unfold bind. rewrite E1, E2, E3, E4. reflexivity. }
  rewrite X in E. injection E as <- <-.
  assert (O2 := perform_others r Hr false DFmInit _ _ _ I1 I E2 ltac:(auto)).
  assert (O3 := perform_others r Hr false DPsgReset _ _ _ I2 I E3 ltac:(auto)).
  assert (O4 := perform_others r Hr false DFmReset _ _ _ I3 I E4 ltac:(auto)).
  cbn [Datatypes.app]. rewrite !filter_app, O2, O3, O4. split; [reflexivity|].
  destruct F2 as (_ & _ & _ & _ & M2 & A2 & B2). destruct F3 as (_ & _ & _ & _ & M3 & A3 & B3). destruct F4 as (_ & _ & _ & _ & M4 & A4 & B4).
  split; [rewrite M4, M3, M2; reflexivity|]. split.
  - intros n Hn. assert (G0 : zget (v_fm s1) n = Some mfch0).
    { change (v_fm s1) with (repeat mfch0 6). apply zget_repeat_in. exact Hn. }
    exact (A4 _ _ (A3 _ _ (A2 _ _ G0))).
  - intros n Hn. assert (G0 : zget (v_user s1) n = Some None).
    { change (v_user s1) with (repeat (@None preset) 128). apply zget_repeat_in. exact Hn. }
    exact (B4 _ _ (B3 _ _ (B2 _ _ G0))).
Qed.

Lemma played_rec (J : list dcall -> devst -> list event -> Prop) :
  (forall s o, dev_inv s -> psg_good r (v_psg s) ->
     synth_run [SInit (preset0 r)] synth0 = Done tt (v_synth s) (filter fm_event o) ->
     v_psg s = PsgRunProofs.boot_state -> filter psg_event o = [] -> filter other_event o = [] -> sr_mem (v_sram s) = mem ->
     (forall n, 0 <= n < 6 -> zget (v_fm s) n = Some (mkMf 0 0 127 127 0 false)) ->
     (forall n, 0 <= n < 128 -> zget (v_user s) n = Some None) -> J [] s o) ->
  (forall cs s tr c s' o, dev_inv s -> psg_good r (v_psg s) -> J cs s tr -> MidiSpec.dcall_ok c -> ~ beyond_samples c -> Forall MidiSpec.dcall_ok cs ->
     does r (perform r false c) s s' (synth_calls r s c) (psg_calls c) o -> frame r s c s' ->
     filter other_event o = other_by r s c -> dev_inv s' -> J (cs ++ [c]) s' (tr ++ o)) ->
  (forall cs s tr x o, dev_inv s -> psg_good r (v_psg s) -> J cs s tr -> does r (ps r PTick) s (v_set_psg s x) [] [PTick] o ->
     filter other_event o = [] -> J cs (v_set_psg s x) (tr ++ o)) ->
  (forall cs s tr b o, dev_inv s -> psg_good r (v_psg s) -> J cs s tr ->
     does r (syn (SCallback b)) s (v_set_synth s (post (SCallback b) (v_synth s))) [SCallback b] [] o ->
     filter other_event o = [] -> J cs (v_set_synth s (post (SCallback b) (v_synth s))) (tr ++ o)) ->
  forall cs s tr, played r mem cs s tr -> Forall MidiSpec.dcall_ok cs -> J (skipn 4 cs) s tr.
Proof.
  intros H0 H1 H2 H3 cs s tr P.
  induction P as [s o E|cs s tr c s' o P IH H E|cs s tr s' o P IH E|cs s tr b s' o P IH E]; intros Hc.
  - destruct (first_calls_run r Hr mem Hm) as (s1 & o1 & E1 & I & G & S & V & W). rewrite E in E1. injection E1 as <- <-.
    destruct (first_calls_more _ _ E) as (A1 & A2 & A3 & A4). apply H0; assumption.
  - apply Forall_app in Hc as [Hc1 Hc2]. assert (Hc0 := Forall_inv Hc2). destruct (played_ok r Hr mem _ _ _ Hm P Hc1) as (I & G & _).
    assert (B : ~ beyond_samples c) by (intros B; rewrite (perform_beyond r Hr false c s B) in E; discriminate).
    destruct (perform_does r Hr false c s I G Hc0 ltac:(contradiction) B) as (s1 & o1 & D & F & I1 & G1).
    assert (E1 := proj1 D). rewrite E in E1. injection E1 as <- <-.
    destruct (played_prefix _ _ _ _ _ P) as [t ->]. cbn [first_calls Datatypes.app skipn] in *.
    apply (H1 t s tr); auto; [exact (Forall_inv_tail (Forall_inv_tail (Forall_inv_tail (Forall_inv_tail Hc1))))|]. apply (perform_others r Hr false _ _ _ _ I Hc0 E). contradiction.
  - destruct (played_ok r Hr mem _ _ _ Hm P Hc) as (I & G & _).
    destruct (does_ps r Hr PTick s G Logic.I) as (x & o1 & D & G1). assert (E1 := proj1 D). rewrite E in E1. injection E1 as -> <-.
    apply (H2 (skipn 4 cs) s tr); auto. eapply filter_other_none; [apply (ps_emits r PTick)|exact E].
  - destruct (played_ok r Hr mem _ _ _ Hm P Hc) as (I & G & _).
    destruct (does_syn r (SCallback b) s (proj1 (proj1 I)) Logic.I) as (o1 & D). assert (E1 := proj1 D). rewrite E in E1. injection E1 as -> <-.
    apply (H3 (skipn 4 cs) s tr); auto. eapply filter_other_none; [apply (syn_emits (SCallback b))|exact E].
Qed.
End Played.
