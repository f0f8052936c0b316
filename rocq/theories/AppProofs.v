(** The whole interface: every history runs, and both chips see what a history
    of synth.c and midi_psg.c produces. *)
From Verif Require Import Base BaseLemmas SynthModel SynthSpec SynthProofs SynthMirrorProofs PsgModel MidiModel.
From Verif Require Import DevModel DevSpec DevProofs AppModel AppSpec.
From Verif Require PsgSpec PsgRunProofs SramSpec MidiSpec MidiProofs MidiOkProofs MidiEffectProofs MidiCallProofs RxModel.

Lemma beyond_dec c : {beyond_samples c} + {~ beyond_samples c}.
Proof.
  destruct c as [v n p ce vel|v n p|v n x|v n x|v n|v n x|v n p ce|n b|op|e|prog p|prog|n prog|prog|mc n|data| | | | | |k mc key v|mc b];
    try (right; intros (? & ? & ? & ? & [=] & _); fail).
  destruct v; try (right; intros (? & ? & ? & ? & [=] & _); fail).
  destruct (Z_le_gt_dec 128 p); [left; do 4 eexists; split; [reflexivity|assumption]|].
  right. intros (a1 & a2 & a3 & a4 & E & HH). injection E as -> -> -> ->. lia.
Qed.

Section App.
Context (r : rom) (Hr : rom_ok r).

(** [so] are synth.c calls made for calls in [cs]. *)
Definition from_calls (cs : list dcall) (so : list sop) : Prop :=
  forall op, In op so -> exists si c, In c cs /\ sound_ok si /\ In op (synth_calls r si c).

Lemma perform_all_does det cs : forall s, dev_inv s -> psg_good r (v_psg s) -> Forall MidiSpec.dcall_ok cs ->
  (In DFmInit cs -> det = false) -> ~ Exists beyond_samples cs ->
  exists s' o so, does r (perform_all r det cs) s s' so (flat_map psg_calls cs) o /\ dev_inv s' /\ psg_good r (v_psg s') /\
    Forall sop_ok so /\ from_calls cs so.
Proof.
  induction cs as [|c t IH]; intros s Hi Hg Hc Hd Hb.
  - exists s, [], []. split; [apply does_ret|]. split; [exact Hi|]. split; [exact Hg|]. split; [constructor|intros op []].
  - assert (Hc1 := Forall_inv Hc). assert (Hc2 := Forall_inv_tail Hc).
    destruct (perform_does r Hr det c s Hi Hg Hc1) as (s1 & o1 & D1 & F1 & I1 & G1).
    { intros ->. apply Hd. left. reflexivity. }
    { intros H. apply Hb. left. exact H. }
    destruct (IH s1 I1 G1 Hc2) as (s2 & o2 & so & D2 & I2 & G2 & S2 & R2).
    { intros H. apply Hd. right. exact H. }
    { intros H. apply Hb. right. exact H. }
    exists s2, (o1 ++ o2), (synth_calls r s c ++ so). split; [|split; [exact I2|split; [exact G2|split]]].
    + unfold perform_all. cbn [runM flat_map]. apply (does_seq r _ _ s s1 s2); assumption.
    + apply Forall_app. split; [apply synth_calls_ok; [exact Hr|apply Hi|exact Hc1]|exact S2].
    + intros op Hop. apply in_app_or in Hop as [Hop|Hop].
      * exists s, c. split; [left; reflexivity|]. split; [apply Hi|exact Hop].
      * destruct (R2 op Hop) as (si & c' & H1 & H2). exists si, c'. split; [right; exact H1|exact H2].
Qed.
Lemma perform_all_beyond det cs : forall s, dev_inv s -> psg_good r (v_psg s) -> Forall MidiSpec.dcall_ok cs ->
  (In DFmInit cs -> det = false) -> Exists beyond_samples cs -> perform_all r det cs s = Fault F_pcm.
Proof.
  induction cs as [|c t IH]; intros s Hi Hg Hc Hd Hb; [inversion Hb|].
  unfold perform_all. cbn [runM]. unfold bind.
  destruct (beyond_dec c) as [B|B]; [rewrite (perform_beyond r Hr det c s B); reflexivity|].
  destruct (perform_does r Hr det c s Hi Hg (Forall_inv Hc)) as (s1 & o1 & (E1 & _) & _ & I1 & G1); [|exact B|].
  { intros ->. apply Hd. left. reflexivity. }
  rewrite E1. fold (perform_all r det t). rewrite (IH s1 I1 G1 (Forall_inv_tail Hc)); [reflexivity| |].
  - intros H. apply Hd. right. exact H.
  - inversion Hb; [contradiction|assumption].
Qed.

(** ** One step *)
Definition app_inv (s : app) : Prop :=
  MidiSpec.midi_ok (a_midi s) /\ dev_inv (a_dev s) /\ psg_good r (v_psg (a_dev s)).

(** Calls to the chips made for [op]. *)
Definition synth_from (op : aop) (so : list sop) : Prop :=
  forall x, In x so -> exists si c, MidiCallProofs.menu (message op) c /\ MidiSpec.dcall_ok c /\ sound_ok si /\ In x (synth_calls r si c).
Definition psg_from (op : aop) (po : list pop) : Prop :=
  forall x, In x po -> (op = AFrame /\ x = PTick) \/ exists c, MidiCallProofs.menu (message op) c /\ MidiSpec.dcall_ok c /\ In x (psg_calls c).

(** The step of the chips: synth.c gets [so], midi_psg.c gets [po]. *)
Definition chips (s s' : app) (so : list sop) (po : list pop) (o : list event) : Prop :=
  synth_run so (v_synth (a_dev s)) = Done tt (v_synth (a_dev s')) (filter fm_event o) /\
  psg_run (rom_pal r) (rom_envs r) po (v_psg (a_dev s)) = Done tt (v_psg (a_dev s')) (filter psg_event o).

Lemma menu_no_init op c : MidiCallProofs.menu op c -> c <> DFmInit /\ c <> DPsgInit.
Proof.
  clear. intros H. split; intros ->; destruct op; cbn in H; try contradiction; firstorder discriminate.
Qed.

Lemma msg_step m s : app_inv s -> MidiSpec.mop_ok m ->
  (exists s' o so po, app_midi r (midi_step m) s = Done tt s' o /\ app_inv s' /\ chips s s' so po o /\
     Forall sop_ok so /\ Forall PsgSpec.pop_ok po /\
     (forall x, In x so -> exists si c, MidiCallProofs.menu m c /\ MidiSpec.dcall_ok c /\ sound_ok si /\ In x (synth_calls r si c)) /\
     (forall x, In x po -> exists c, MidiCallProofs.menu m c /\ MidiSpec.dcall_ok c /\ In x (psg_calls c)) /\
     exists cs, midi_step m (a_midi s) = WDone (a_midi s') cs) \/
  (app_midi r (midi_step m) s = Fault F_pcm /\ missing_sample m (a_midi s)) \/
  (app_midi r (midi_step m) s = Fault F_uninit /\ MidiSpec.odd_envelope m).
Proof.
  intros (H1 & H2 & H3) Hm. unfold app_midi. assert (W := MidiOkProofs.midi_step_ok m (a_midi s) H1 Hm).
  assert (Mn := MidiCallProofs.calls_menu m (a_midi s)).
  destruct (midi_step m (a_midi s)) as [s1 cs|f] eqn:E; cbn [MidiProofs.wpw] in W.
  2:{ destruct W as [-> Ho]. right; right. split; [reflexivity|exact Ho]. }
  destruct W as [Hcs Hs1]. specialize (Mn _ _ eq_refl).
  assert (Hn : In DFmInit cs -> detected s = false).
  { intros Hin. rewrite Forall_forall in Mn. destruct (menu_no_init _ _ (Mn _ Hin)) as [X _]. contradiction X. reflexivity. }
  destruct (Exists_dec beyond_samples cs beyond_dec) as [B|B].
  - right; left. rewrite (perform_all_beyond _ cs _ H2 H3 Hcs Hn B). split; [reflexivity|]. exists s1, cs. auto.
  - left. destruct (perform_all_does (detected s) cs _ H2 H3 Hcs Hn B) as (d & o & so & (D & DS & DP) & I & G & S & R).
    exists (mkApp s1 d (a_x7 s) (a_pro s)), o, so, (flat_map psg_calls cs). rewrite D.
    split; [reflexivity|]. split; [split; [exact Hs1|split; assumption]|]. split; [split; assumption|]. split; [exact S|].
    split; [|split; [|split]].
    + apply Forall_flat_map. rewrite Forall_forall in Hcs |- *. intros c Hc. apply psg_calls_ok, Hcs, Hc.
    + intros x Hx. destruct (R x Hx) as (si & c & Hc & Hsi & Hin). exists si, c. rewrite Forall_forall in Mn, Hcs. auto.
    + intros x Hx. apply in_flat_map in Hx as (c & Hc & Hin). exists c. rewrite Forall_forall in Mn, Hcs. auto.
    + exists cs. reflexivity.
Qed.

Lemma frame_tick s : app_inv s -> exists s' o, app_dev (ps r PTick) s = Done tt s' o /\ app_inv s' /\ chips s s' [] [PTick] o /\ a_midi s' = a_midi s.
Proof.
  intros (H1 & H2 & H3). destruct (does_ps r Hr PTick (a_dev s) H3 I) as (x & o & (D & DS & DP) & G).
  unfold app_dev, lift. rewrite D. eexists. exists o. split; [reflexivity|]. split; [|split; [split; assumption|reflexivity]].
  split; [exact H1|]. split; [exact H2|exact G].
Qed.

Theorem app_step_ok op s : app_inv s -> aop_ok op ->
  (exists s' o so po, app_step r op s = Done tt s' o /\ app_inv s' /\ chips s s' so po o /\
     Forall sop_ok so /\ Forall PsgSpec.pop_ok po /\ synth_from op so /\ psg_from op po /\
     exists cs, midi_step (message op) (a_midi s) = WDone (a_midi s') cs) \/
  (app_step r op s = Fault F_pcm /\ missing_sample (message op) (a_midi s)) \/
  (app_step r op s = Fault F_uninit /\ MidiSpec.odd_envelope (message op)).
Proof.
  intros Hi Ho. destruct op as [m|]; cbn [app_step aop_ok message] in *.
  - destruct (msg_step m s Hi Ho) as [(s' & o & so & po & E & I & C & S & P & R1 & R2 & cs)|H]; [left|right; exact H].
    exists s', o, so, po. repeat (split; [assumption|]). split; [|exact cs]. intros x Hx. right. auto.
  - destruct (frame_tick s Hi) as (s1 & o1 & E1 & I1 & [CS CP] & EM).
    assert (X := msg_step MTick s1 I1 I). rewrite EM in X. unfold bind. rewrite E1.
    destruct X as [(s' & o & so & po & E & I' & [S P] & S1 & S2 & R1 & R2 & cs)|[[E H]|[E H]]].
    + left. exists s', (o1 ++ o), so, (PTick :: po). rewrite E. split; [reflexivity|]. split; [exact I'|].
      split; [|split; [exact S1|split; [constructor; [exact I|exact S2]|split; [|split; [|exact cs]]]]].
      * split; rewrite filter_app; [exact (synth_run_app [] so _ _ _ _ _ CS S)|exact (psg_run_app _ _ [PTick] po _ _ _ _ _ CP P)].
      * exact R1.
      * intros x [<-|Hx]; [left; auto|right; auto].
    + right; left. rewrite E. split; [reflexivity|exact H].
    + right; right. rewrite E. split; [reflexivity|exact H].
Qed.

(** ** Power-on *)
Definition first_calls : list dcall := [DPsgInit; DFmInit; DPsgReset; DFmReset].
Definition preset0 : preset := nth 0 (rom_presets r) no_preset.

Lemma devst0_inv mem : mem_ok mem -> dev_inv (devst0 mem).
Proof.
  intros [H1 H2]. split; [|reflexivity]. split; [exact synth0_ok|]. split; [reflexivity|]. split.
  { cbn. repeat (constructor; [unfold fm_ok, seven; cbn; lia|]). constructor. }
  split; [reflexivity|]. split; [|split; [split; assumption|reflexivity]].
  cbn [devst0 v_user]. assert (X : forall n, Forall user_ok (repeat None n)) by (induction n; constructor; [exact I|assumption]). apply X.
Qed.
Lemma psg_reset_again x : psg_good r x -> psg_run (rom_pal r) (rom_envs r) [PReset] x = Done tt (PsgRunProofs.reset_state x) [].
Proof.
  intros [ue [[HL _] _]]. unfold psg_run. cbn [runM]. unfold bind. cbn [psg_step].
  rewrite PsgRunProofs.reset_exec; [reflexivity|apply Hr|exact HL].
Qed.

Lemma first_calls_run mem : mem_ok mem ->
  exists s o, perform_all r false first_calls (devst0 mem) = Done tt s o /\ dev_inv s /\ psg_good r (v_psg s) /\
    synth_run [SInit preset0] synth0 = Done tt (v_synth s) (filter fm_event o) /\
    v_psg s = PsgRunProofs.boot_state /\ filter psg_event o = [].
Proof.
  intros Hm. assert (He : PsgSpec.envs_ok (rom_envs r)) by apply Hr.
  assert (H0 := devst0_inv mem Hm).
  set (s1 := v_set_psg (devst0 mem) PsgRunProofs.boot_state).
  assert (I1 : dev_inv s1) by exact H0.
  assert (G1 : psg_good r (v_psg s1)) by (exists (-1); exact (PsgRunProofs.boot_inv _ He)).
  assert (E1 : perform r false DPsgInit (devst0 mem) = Done tt s1 []).
  { cbn [perform]. unfold ps, lift. cbn [psg_step devst0 v_psg]. rewrite PsgRunProofs.reset_exec by (exact He || reflexivity). reflexivity. }
  destruct (perform_does r Hr false DFmInit s1 I1 G1 I (fun _ => eq_refl)) as (s2 & o2 & (E2 & S2 & P2) & F2 & I2 & G2); [intros (? & ? & ? & ? & [=] & _)|].
  destruct (perform_does r Hr false DPsgReset s2 I2 G2 I ltac:(discriminate)) as (s3 & o3 & (E3 & S3 & P3) & F3 & I3 & G3); [intros (? & ? & ? & ? & [=] & _)|].
  destruct (perform_does r Hr false DFmReset s3 I3 G3 I ltac:(discriminate)) as (s4 & o4 & (E4 & S4 & P4) & F4 & I4 & G4); [intros (? & ? & ? & ? & [=] & _)|].
  exists s4, ([] ++ o2 ++ o3 ++ o4 ++ []). split; [|split; [exact I4|split; [exact G4|]]].
  - unfold first_calls, perform_all. cbn [runM]. unfold bind. rewrite E1, E2, E3, E4. reflexivity.
  - cbn [synth_calls psg_calls] in *.
    cbn in S2. injection S2 as V2 O2. cbn in S3. injection S3 as V3 O3. cbn in P2. injection P2 as W2 Q2. cbn in P4. injection P4 as W4 Q4.
    rewrite psg_reset_again in P3 by exact G2. injection P3 as W3 Q3.
    cbn [Datatypes.app]. rewrite !filter_app, <- O2, <- O3, <- Q2, <- Q3, <- Q4. cbn [filter Datatypes.app]. rewrite app_nil_r.
    split; [|split; [|reflexivity]].
    + rewrite <- V3, <- V2 in S4. exact S4.
    + rewrite <- W4, <- W3, <- W2. reflexivity.
Qed.

(** Everything that happened since power-on: the calls of midi.c, the frames of
    midi_psg.c and the registration of synth.c's callback. *)
Inductive played (mem : list Z) : list dcall -> devst -> list event -> Prop :=
| played_first s o : perform_all r false first_calls (devst0 mem) = Done tt s o -> played mem first_calls s o
| played_call cs s tr c s' o : played mem cs s tr -> c <> DFmInit -> perform r false c s = Done tt s' o -> played mem (cs ++ [c]) s' (tr ++ o)
| played_tick cs s tr s' o : played mem cs s tr -> ps r PTick s = Done tt s' o -> played mem cs s' (tr ++ o)
| played_callback cs s tr b s' o : played mem cs s tr -> syn (SCallback b) s = Done tt s' o -> played mem cs s' (tr ++ o).

Lemma perform_det det c : c <> DFmInit -> perform r det c = perform r false c.
Proof. destruct c; try reflexivity. intros H. contradiction H. reflexivity. Qed.
Lemma played_calls mem det cs' : forall cs s tr s' o, played mem cs s tr -> ~ In DFmInit cs' ->
  perform_all r det cs' s = Done tt s' o -> played mem (cs ++ cs') s' (tr ++ o).
Proof.
  induction cs' as [|c t IH]; intros cs s tr s' o P Hn E.
  - cbn in E. injection E as <- <-. rewrite !app_nil_r. exact P.
  - unfold perform_all in E. cbn [runM] in E. unfold bind in E.
    assert (Hc : c <> DFmInit) by (intros ->; apply Hn; left; reflexivity).
    rewrite (perform_det det c Hc) in E.
    destruct (perform r false c s) as [[] s1 o1|] eqn:E1; [|discriminate]. fold (perform_all r det t) in E.
    destruct (perform_all r det t s1) as [[] s2 o2|] eqn:E2; [|discriminate]. injection E as <- <-.
    rewrite app_assoc. replace (cs ++ c :: t) with ((cs ++ [c]) ++ t) by (rewrite <- app_assoc; reflexivity).
    apply (IH _ s1 (tr ++ o1)).
    + eapply played_call; eassumption.
    + intros H. apply Hn. right. exact H.
    + exact E2.
Qed.
Lemma played_prefix mem cs s tr : played mem cs s tr -> exists t, cs = first_calls ++ t.
Proof.
  induction 1 as [s o E|cs s tr c s' o P [t ->] H E|cs s tr s' o P IH E|cs s tr b s' o P IH E].
  - exists []. rewrite app_nil_r. reflexivity.
  - exists (t ++ [c]). rewrite app_assoc. reflexivity.
  - exact IH.
  - exact IH.
Qed.

(** What has reached the chips. *)
Theorem played_ok mem cs s tr : mem_ok mem -> played mem cs s tr -> Forall MidiSpec.dcall_ok cs ->
  dev_inv s /\ psg_good r (v_psg s) /\
  exists so po, synth_run (SInit preset0 :: so) synth0 = Done tt (v_synth s) (filter fm_event tr) /\
    psg_run (rom_pal r) (rom_envs r) (PReset :: po) psg0 = Done tt (v_psg s) (filter psg_event tr) /\
    Forall sop_ok so /\ Forall PsgSpec.pop_ok po /\
    (forall x, In x so -> (exists b, x = SCallback b) \/ exists si c, In c (skipn 4 cs) /\ sound_ok si /\ In x (synth_calls r si c)) /\
    (forall x, In x po -> x = PTick \/ exists c, In c (skipn 4 cs) /\ In x (psg_calls c)).
Proof.
  intros Hm. assert (He : PsgSpec.envs_ok (rom_envs r)) by apply Hr.
  induction 1 as [s o E|cs s tr c s' o P IH H E|cs s tr s' o P IH E|cs s tr b s' o P IH E]; intros Hc.
  - destruct (first_calls_run mem Hm) as (s1 & o1 & E1 & I & G & S & V & W). rewrite E in E1. injection E1 as <- <-.
    split; [exact I|]. split; [exact G|]. exists [], []. split; [exact S|]. rewrite PsgRunProofs.boot_run by exact He.
    split; [cbn; rewrite V, W; reflexivity|]. split; [apply Forall_nil|]. split; [apply Forall_nil|]. split; intros x [].
  - apply Forall_app in Hc as [Hc1 Hc2]. destruct (IH Hc1) as (I & G & so & po & S & P1 & S1 & P2 & R1 & R2).
    destruct (played_prefix _ _ _ _ P) as [t ->].
    assert (B : ~ beyond_samples c) by (intros B; rewrite (perform_beyond r Hr false c s B) in E; discriminate).
    destruct (perform_does r Hr false c s I G (Forall_inv Hc2) ltac:(contradiction) B) as (s1 & o1 & (E1 & DS & DP) & F & I1 & G1).
    rewrite E in E1. injection E1 as <- <-. split; [exact I1|]. split; [exact G1|].
    exists (so ++ synth_calls r s c), (po ++ psg_calls c). rewrite !filter_app.
    split; [exact (synth_run_app (SInit preset0 :: so) _ _ _ _ _ _ S DS)|].
    split; [exact (psg_run_app _ _ (PReset :: po) _ _ _ _ _ _ P1 DP)|].
    split; [apply Forall_app; split; [exact S1|apply synth_calls_ok; [exact Hr|apply I|exact (Forall_inv Hc2)]]|].
    split; [apply Forall_app; split; [exact P2|apply psg_calls_ok, (Forall_inv Hc2)]|].
    cbn [first_calls Datatypes.app skipn] in *. split.
    + intros x Hx. apply in_app_or in Hx as [Hx|Hx].
      * destruct (R1 x Hx) as [?|(si & c' & A & B')]; [auto|]. right. exists si, c'. split; [apply in_or_app; left; exact A|exact B'].
      * right. exists s, c. split; [apply in_or_app; right; left; reflexivity|]. split; [apply I|exact Hx].
    + intros x Hx. apply in_app_or in Hx as [Hx|Hx].
      * destruct (R2 x Hx) as [?|(c' & A & B')]; [auto|]. right. exists c'. split; [apply in_or_app; left; exact A|exact B'].
      * right. exists c. split; [apply in_or_app; right; left; reflexivity|exact Hx].
  - destruct (IH Hc) as (I & G & so & po & S & P1 & S1 & P2 & R1 & R2).
    destruct (does_ps r Hr PTick s G Logic.I) as (x & o1 & (E1 & DS & DP) & G1). rewrite E in E1. injection E1 as -> <-.
    split; [exact I|]. split; [exact G1|]. exists so, (po ++ [PTick]). rewrite !filter_app.
    split; [rewrite <- (app_nil_r so); exact (synth_run_app (SInit preset0 :: so) [] _ _ _ _ _ S DS)|].
    split; [exact (psg_run_app _ _ (PReset :: po) _ _ _ _ _ _ P1 DP)|]. split; [exact S1|].
    split; [apply Forall_app; split; [exact P2|repeat constructor]|]. split; [exact R1|].
    intros y Hy. apply in_app_or in Hy as [Hy|[<-|[]]]; auto.
  - destruct (IH Hc) as (I & G & so & po & S & P1 & S1 & P2 & R1 & R2).
    destruct (does_syn r (SCallback b) s (proj1 (proj1 I)) Logic.I) as (o1 & E1 & DS & DP). rewrite E in E1. injection E1 as -> <-.
    split; [split; [|exact (proj2 I)]|].
    { destruct I as [(X1 & X2) _]. split; [|exact X2]. apply (post_ok (SCallback b)); [exact X1|exact Logic.I]. }
    split; [exact G|]. exists (so ++ [SCallback b]), po. rewrite !filter_app.
    split; [exact (synth_run_app (SInit preset0 :: so) _ _ _ _ _ _ S DS)|].
    split; [rewrite <- (app_nil_r po); exact (psg_run_app _ _ (PReset :: po) [] _ _ _ _ _ P1 DP)|].
    split; [apply Forall_app; split; [exact S1|repeat constructor]|]. split; [exact P2|]. split; [|exact R2].
    intros y Hy. apply in_app_or in Hy as [Hy|[<-|[]]]; [auto|left; eauto].
Qed.
End App.

(** ** Whole histories *)
Lemma boot_calls_ok : Forall MidiSpec.dcall_ok MidiEffectProofs.boot_calls.
Proof. assert (H := MidiOkProofs.midi_boot_ok [] (Forall_nil _)). rewrite MidiEffectProofs.midi_boot_eq in H. exact (proj1 H). Qed.
Lemma boot_calls_split : exists t, MidiEffectProofs.boot_calls = first_calls ++ t /\ ~ In DFmInit t /\ ~ Exists beyond_samples t.
Proof.
  exists (skipn 4 MidiEffectProofs.boot_calls). split; [reflexivity|]. cbn [skipn MidiEffectProofs.boot_calls]. split.
  - intros H. repeat (destruct H as [H|H]; [discriminate H|]). exact H.
  - intros H. apply Exists_exists in H as (c & H & n & p & ce & v & E & _). rewrite E in H.
    repeat (destruct H as [H|H]; [discriminate H|]). exact H.
Qed.
Lemma perform_all_app r det a : forall b s s1 o1 s2 o2, perform_all r det a s = Done tt s1 o1 -> perform_all r det b s1 = Done tt s2 o2 ->
  perform_all r det (a ++ b) s = Done tt s2 (o1 ++ o2).
Proof. intros b s s1 o1 s2 o2 H1 H2. unfold perform_all in *. rewrite runM_app. unfold bind. rewrite H1, H2. reflexivity. Qed.

Lemma app_main_eq r hw mem m calls s o s' o' : midi_init midi0 = WDone m calls -> perform_all r false calls (devst0 mem) = Done tt s o ->
  syn (SCallback true) s = Done tt s' o' ->
  app_main r hw RxModel.STARTUP_MIDI_SEQUENCE (app0 mem) = Done tt (mkApp (md_set_cb m true) s' (x7_detected hw) (pro_detected hw)) (o ++ o').
Proof.
  intros E1 E2 E3. unfold app_main, bind, app_midi at 1. change (a_midi (app0 mem)) with midi0. rewrite E1.
  change (detected (app0 mem)) with false. change (a_dev (app0 mem)) with (devst0 mem). rewrite E2.
  unfold ui_init, bind, app_midi. cbn [a_midi midi_step wret]. unfold wret, perform_all. cbn [runM]. unfold ret. cbn [a_dev].
  unfold app_dev, lift. cbn [a_dev a_midi a_x7 a_pro]. rewrite E3. unfold comm_init, modify, startup. cbn [a_dev a_midi a_x7 a_pro].
  cbn [RxModel.run_startup_sequence RxModel.rx_run RxModel.STARTUP_MIDI_SEQUENCE map app_run runM]. unfold ret.
  rewrite !app_nil_r. reflexivity.
Qed.
Lemma app_main_ok r hw mem : rom_ok r -> mem_ok mem ->
  exists s o, app_main r hw RxModel.STARTUP_MIDI_SEQUENCE (app0 mem) = Done tt s o /\
    played r mem MidiEffectProofs.boot_calls (a_dev s) o /\ app_inv r s /\ a_midi s = md_set_cb MidiEffectProofs.booted true.
Proof.
  intros Hr Hm. destruct boot_calls_split as (t & Et & Hn & Hb).
  destruct (first_calls_run r Hr mem Hm) as (s1 & o1 & E1 & I1 & G1 & _).
  assert (Hc : Forall MidiSpec.dcall_ok t) by (assert (H := boot_calls_ok); rewrite Et in H; apply Forall_app in H; apply H).
  destruct (perform_all_does r Hr false t s1 I1 G1 Hc ltac:(auto) Hb) as (s2 & o2 & so & (E2 & _) & I2 & G2 & _).
  assert (E := perform_all_app _ _ _ _ _ _ _ _ _ E1 E2). rewrite <- Et in E.
  assert (P : played r mem MidiEffectProofs.boot_calls s2 (o1 ++ o2)).
  { rewrite Et. eapply played_calls; [constructor; exact E1|exact Hn|exact E2]. }
  destruct (does_syn r (SCallback true) s2 (proj1 (proj1 I2)) Logic.I) as (o3 & E3 & _).
  exists (mkApp (md_set_cb MidiEffectProofs.booted true) (v_set_synth s2 (post (SCallback true) (v_synth s2))) (x7_detected hw) (pro_detected hw)), ((o1 ++ o2) ++ o3). split.
  - exact (app_main_eq r hw mem _ _ _ _ _ _ MidiEffectProofs.midi_init_booted E E3).
  - cbn [a_dev a_midi]. split; [|split; [|reflexivity]].
    + eapply played_callback; [exact P|exact E3].
    + split; [|split; [|exact G2]].
      * exact MidiEffectProofs.booted_ok.
      * destruct I2 as [(X1 & X2) X3]. split; [|exact X3]. split; [|exact X2]. apply (post_ok (SCallback true)); [exact X1|exact Logic.I].
Qed.

Lemma app_run_snoc r ops op s s' o : app_run r (ops ++ [op]) s = Done tt s' o ->
  exists s1 o1 o2, app_run r ops s = Done tt s1 o1 /\ app_step r op s1 = Done tt s' o2 /\ o = o1 ++ o2.
Proof.
  unfold app_run. rewrite runM_app. unfold bind. destruct (runM (app_step r) ops s) as [[] s1 o1|]; [|discriminate].
  cbn [runM]. unfold bind, ret. destruct (app_step r op s1) as [[] s2 o2|] eqn:E; [|discriminate].
  intros [= <- <-]. exists s1, o1, o2. rewrite app_nil_r. auto.
Qed.
Lemma bind_done {S A B} (m : M S A) (k : A -> M S B) s a s1 o1 b s2 o2 :
  m s = Done a s1 o1 -> k a s1 = Done b s2 o2 -> bind m k s = Done b s2 (o1 ++ o2).
Proof. intros H1 H2. unfold bind. rewrite H1, H2. reflexivity. Qed.
Lemma bind_fault {S A B} (m : M S A) (k : A -> M S B) s a s1 o1 f : m s = Done a s1 o1 -> k a s1 = Fault f -> bind m k s = Fault f.
Proof. intros H1 H2. unfold bind. rewrite H1, H2. reflexivity. Qed.
Lemma bind_inv {S A B} (m : M S A) (k : A -> M S B) s b s2 o : bind m k s = Done b s2 o ->
  exists a s1 o1 o2, m s = Done a s1 o1 /\ k a s1 = Done b s2 o2 /\ o = o1 ++ o2.
Proof.
  unfold bind. destruct (m s) as [a s1 o1|]; [|discriminate]. destruct (k a s1) as [b' s3 o3|] eqn:E; [|discriminate].
  intros [= <- <- <-]. exists a, s1, o1, o3. auto.
Qed.
Lemma bind_fault_inv {S A B} (m : M S A) (k : A -> M S B) s f : bind m k s = Fault f ->
  m s = Fault f \/ exists a s1 o1, m s = Done a s1 o1 /\ k a s1 = Fault f.
Proof.
  unfold bind. destruct (m s) as [a s1 o1|]; [|intros [= <-]; left; reflexivity]. destruct (k a s1) as [b' s3 o3|] eqn:E; [discriminate|].
  intros [= <-]. right. exists a, s1, o1. auto.
Qed.
(** Power-on is independent of the history. *)
Definition powered r hw mem (s0 : app) (o0 : list event) : Prop := app_main r hw RxModel.STARTUP_MIDI_SEQUENCE (app0 mem) = Done tt s0 o0.
Lemma boot_snoc r hw mem ops op s s' tr : app_boot r hw mem (ops ++ [op]) = Done s s' tr ->
  exists s1 o1 o2, app_boot r hw mem ops = Done tt s1 o1 /\ app_step r op s1 = Done tt s' o2 /\ tr = o1 ++ o2.
Proof.
  unfold app_boot. intros H. apply bind_inv in H as ([] & s0 & o0 & o1 & E0 & E1 & ->). destruct s.
  apply app_run_snoc in E1 as (s1 & o2 & o3 & E1 & E2 & ->). exists s1, (o0 ++ o2), o3. rewrite app_assoc.
  split; [exact (bind_done _ _ _ _ _ _ _ _ _ E0 E1)|]. auto.
Qed.
Lemma boot_step r hw mem ops op s tr s' o : app_boot r hw mem ops = Done tt s tr -> app_step r op s = Done tt s' o ->
  app_boot r hw mem (ops ++ [op]) = Done tt s' (tr ++ o).
Proof.
  unfold app_boot. intros H H2. apply bind_inv in H as ([] & s0 & o0 & o1 & E0 & E1 & ->). rewrite <- app_assoc.
  apply (bind_done _ _ _ _ _ _ _ _ _ E0). unfold app_run in *. rewrite runM_app. apply (bind_done _ _ _ _ _ _ _ _ _ E1).
  rewrite <- (app_nil_r o). cbn [runM]. exact (bind_done _ _ _ _ _ _ _ _ _ H2 eq_refl).
Qed.
Lemma boot_step_fault r hw mem ops op s tr f : app_boot r hw mem ops = Done tt s tr -> app_step r op s = Fault f ->
  app_boot r hw mem (ops ++ [op]) = Fault f.
Proof.
  unfold app_boot. intros H H2. apply bind_inv in H as ([] & s0 & o0 & o1 & E0 & E1 & ->).
  apply (bind_fault _ _ _ _ _ _ _ E0). unfold app_run in *. rewrite runM_app. apply (bind_fault _ _ _ _ _ _ _ E1).
  cbn [runM]. unfold bind. rewrite H2. reflexivity.
Qed.
Lemma boot_fault_more r hw mem ops more f : app_boot r hw mem ops = Fault f -> app_boot r hw mem (ops ++ more) = Fault f.
Proof.
  unfold app_boot. intros H. apply bind_fault_inv in H as [H|([] & s0 & o0 & E0 & E1)].
  - unfold bind at 1. rewrite H. reflexivity.
  - apply (bind_fault _ _ _ _ _ _ _ E0). unfold app_run in *. rewrite runM_app. unfold bind. rewrite E1. reflexivity.
Qed.

(** Induction over histories. *)
Lemma history_ind r hw mem (J : list aop -> app -> list event -> Prop) :
  (forall s tr, history r hw mem [] s tr -> J [] s tr) ->
  (forall ops op s tr s' o, history r hw mem ops s tr -> J ops s tr -> aop_ok op -> app_step r op s = Done tt s' o ->
     J (ops ++ [op]) s' (tr ++ o)) ->
  forall ops s tr, history r hw mem ops s tr -> J ops s tr.
Proof.
  intros H0 Hs. induction ops as [|op ops IH] using rev_ind; intros s tr H; [exact (H0 _ _ H)|].
  destruct H as (Hr & Hm & Ho & E). apply Forall_app in Ho as [Ho1 Ho2].
  apply boot_snoc in E as (s1 & o1 & o2 & E1 & E2 & ->).
  assert (H : history r hw mem ops s1 o1) by (split; [exact Hr|split; [exact Hm|split; [exact Ho1|exact E1]]]).
  eapply Hs; [exact H|apply IH, H|exact (Forall_inv Ho2)|exact E2].
Qed.
Lemma history_snoc r hw mem ops op s tr s' o : history r hw mem ops s tr -> aop_ok op -> app_step r op s = Done tt s' o ->
  history r hw mem (ops ++ [op]) s' (tr ++ o).
Proof.
  intros (Hr & Hm & Ho & E) H1 H2. split; [exact Hr|]. split; [exact Hm|]. split; [apply Forall_app; auto|].
  exact (boot_step _ _ _ _ _ _ _ _ _ E H2).
Qed.
Lemma boot_nothing r hw mem s o : powered r hw mem s o -> app_boot r hw mem [] = Done tt s o.
Proof. intros H. unfold app_boot. rewrite <- (app_nil_r o). exact (bind_done _ _ _ _ _ _ _ _ _ H eq_refl). Qed.
(** The MIDI layer and the sound layers of a history. *)
Theorem history_played r hw mem ops s tr : history r hw mem ops s tr ->
  app_inv r s /\ exists cs, MidiSpec.boots_to (MCallback true :: map message ops) (a_midi s) cs /\ played r mem cs (a_dev s) tr.
Proof.
  revert ops s tr. apply history_ind.
  - intros s tr (Hr & Hm & _ & E).
    destruct (app_main_ok r hw mem Hr Hm) as (s0 & o0 & E0 & P & I & Em). rewrite (boot_nothing _ _ _ _ _ E0) in E. injection E as <- <-.
    split; [exact I|]. exists MidiEffectProofs.boot_calls. split; [|exact P]. split; [repeat constructor|].
    rewrite MidiEffectProofs.midi_boot_eq. unfold wbind. cbn [map midi_run]. unfold wbind, wret. cbn [midi_step wret]. rewrite Em, app_nil_r. reflexivity.
  - intros ops op s tr s' o H (Hi & cs & B & P) Ho E. destruct H as (Hr & Hm & _).
    destruct (app_step_ok r Hr op s Hi Ho) as [(s1 & o1 & so & po & E1 & I1 & _ & _ & _ & _ & _ & cs' & Es)|[[E1 _]|[E1 _]]];
      rewrite E in E1; try discriminate. injection E1 as <- <-. split; [exact I1|].
    exists (cs ++ cs'). assert (Hmop : MidiSpec.mop_ok (message op)) by (destruct op; [exact Ho|exact Logic.I]).
    split.
    { rewrite map_app. exact (MidiEffectProofs.boots_snoc (MCallback true :: map message ops) (message op) _ _ cs cs' B Hmop Es). }
    assert (Hn : ~ In DFmInit cs').
    { intros X. assert (Mn := MidiCallProofs.calls_menu (message op) (a_midi s) _ _ Es). rewrite Forall_forall in Mn.
      apply (proj1 (menu_no_init _ _ (Mn _ X))). reflexivity. }
    destruct op as [m|]; cbn [app_step message] in E, Es.
    + unfold app_midi in E. rewrite Es in E. destruct (perform_all r (detected s) cs' (a_dev s)) as [[] d od|] eqn:Ep; [|discriminate].
      injection E as <- <-. eapply played_calls; eassumption.
    + unfold bind, app_dev, lift in E. destruct (ps r PTick (a_dev s)) as [[] d1 o2|] eqn:Et; [|discriminate].
      unfold app_midi in E. cbn [a_midi a_dev a_x7 a_pro] in E. rewrite Es in E.
      destruct (perform_all r _ cs' d1) as [[] d od|] eqn:Ep; [|discriminate].
      injection E as <- <-. rewrite app_assoc. eapply played_calls; [eapply played_tick; eassumption|exact Hn|exact Ep].
Qed.

(** No history is cut short except by the two known faults. *)
Theorem history_total r hw mem ops : rom_ok r -> mem_ok mem -> Forall aop_ok ops ->
  (exists s tr, history r hw mem ops s tr) \/
  (exists a op b s tr, ops = a ++ op :: b /\ history r hw mem a s tr /\
    ((app_boot r hw mem ops = Fault F_pcm /\ missing_sample (message op) (a_midi s)) \/
     (app_boot r hw mem ops = Fault F_uninit /\ MidiSpec.odd_envelope (message op)))).
Proof.
  intros Hr Hm. induction ops as [|op ops IH] using rev_ind; intros Ho.
  - left. destruct (app_main_ok r hw mem Hr Hm) as (s0 & o0 & E0 & P & I & Em). exists s0, o0.
    split; [exact Hr|]. split; [exact Hm|]. split; [constructor|]. exact (boot_nothing _ _ _ _ _ E0).
  - apply Forall_app in Ho as [Ho1 Ho2].
    destruct (IH Ho1) as [(s & tr & H)|(a & x & b & s & tr & E & H & D)].
    + destruct (history_played _ _ _ _ _ _ H) as [Hi _]. assert (Hb := proj2 (proj2 (proj2 H))).
      destruct (app_step_ok r Hr op s Hi (Forall_inv Ho2)) as [(s1 & o1 & so & po & E1 & _)|[[E1 X]|[E1 X]]].
      * left. exists s1, (tr ++ o1). eapply history_snoc; [exact H|exact (Forall_inv Ho2)|exact E1].
      * right. exists ops, op, [], s, tr. split; [reflexivity|]. split; [exact H|]. left. split; [|exact X]. eapply boot_step_fault; eassumption.
      * right. exists ops, op, [], s, tr. split; [reflexivity|]. split; [exact H|]. right. split; [|exact X]. eapply boot_step_fault; eassumption.
    + right. exists a, x, (b ++ [op]), s, tr. split; [rewrite E, <- app_assoc; reflexivity|]. split; [exact H|].
      destruct D as [[D X]|[D X]]; [left|right]; (split; [apply boot_fault_more, D|exact X]).
Qed.
